(** C103: chains of nodes, what they need and what they provide. *)
From Verif Require Import Base TimeFrameModel StoreModel EnergyModel PipelineModel PipelineSpec ChainModel ChainSpec ChainProofs ChainProofs2 ChainProofs3.
Import List. Open Scope list_scope. Open Scope nat_scope.

(** A chain can be run exactly when every node finds what it asks for in the
    meter's metadata or is given it by a node upstream, and no node except
    [Apply] has a dropout rate node upstream. *)
Theorem C103_runs : forall join clash some metadata device plan, fits (source metadata device) ->
  ((exists ns, run join clash some (source metadata device) (made plan) = Ok ns) <-> supported (source metadata device) (kinds plan)).
Proof. intros join clash some metadata device plan. apply runs. Qed.
Print Assumptions C103_runs.

(** So the chains of a meter's own statistics run exactly when its device
    describes what they need. *)
Theorem C103_meter : forall join clash some metadata device x y, fits (source metadata device) ->
  ((exists ns, run join clash some (source metadata device) (made [(TotalEnergy, fst x, snd x); (Clip, fst y, snd y)]) = Ok ns) <->
     present [k_measurements] (Dict device) /\ present [k_max_sample_period] (Dict device)) /\
  ((exists ns, run join clash some (source metadata device) (made [(GoodSections, fst x, snd x)]) = Ok ns) <-> present [k_max_sample_period] (Dict device)) /\
  ((exists ns, run join clash some (source metadata device) (made [(DropoutRate, fst x, snd x)]) = Ok ns) <-> present [k_sample_period] (Dict device)).
Proof. exact meter_runs. Qed.
Print Assumptions C103_meter.

(** Otherwise the last node of the chain that is not supported decides: the
    check refuses it if it is not ready, or KeyError is raised because the
    metadata cannot be read. *)
Theorem C103_raises : forall join clash some metadata device plan e, fits (source metadata device) ->
  run join clash some (source metadata device) (made plan) = Err e ->
  exists down k up, kinds plan = down ++ k :: up /\
    (forall d1 k' d2, down = d1 ++ k' :: d2 ->
       ready (source metadata device) (d2 ++ k :: up) k' /\ readable (d2 ++ k :: up) k') /\
    ((e = UnsatisfiedRequirementsError /\ ~ ready (source metadata device) up k) \/ (e = KeyError /\ ~ readable up k)).
Proof. intros join clash some metadata device plan e. apply raises. Qed.
Print Assumptions C103_raises.

(** The dry run has an entry where the meter has one or some node promises it. *)
Theorem C103_dry_run : forall join clash metadata device plan, fits (source metadata device) ->
  exists D, dry_run_metadata join clash (source metadata device) (made plan) = Ok D /\
    forall a b, present [a; b] D <-> present [a; b] (source metadata device) \/ exists k, In k (kinds plan) /\ promise k = Some [a; b].
Proof. intros join clash metadata device plan. apply dry_two. Qed.
Print Assumptions C103_dry_run.

(** After a run over at least one chunk the metadata hold the answers of all
    nodes, together with what the meter's metadata said before. *)
Theorem C103_answers : forall join clash metadata device plan ns, fits (source metadata device) -> sound_plan plan ->
  run join clash true (source metadata device) (made plan) = Ok ns ->
  exists g, get_metadata join clash (source metadata device) ns = Ok g /\
    follow p_good_sections g = gathered join good_answer plan (follow p_good_sections (source metadata device)) /\
    follow p_dropout_rate g = gathered join dropout_answer plan (follow p_dropout_rate (source metadata device)) /\
    forall a, follow (p_total_energy a) g = gathered join (energy_answer a) plan (follow (p_total_energy a) (source metadata device)).
Proof. intros join clash metadata device plan ns. apply supplied. Qed.
Print Assumptions C103_answers.

(** All else in the metadata stays as it was. *)
Theorem C103_kept : forall join clash metadata device plan ns, fits (source metadata device) -> sound_plan plan ->
  run join clash true (source metadata device) (made plan) = Ok ns ->
  exists g, get_metadata join clash (source metadata device) ns = Ok g /\
    forall k q, k <> k_statistics -> k <> k_total_energy -> follow (k :: q) g = follow (k :: q) (source metadata device).
Proof. intros join clash metadata device plan ns. apply kept. Qed.
Print Assumptions C103_kept.
Theorem C103_other_statistics : forall join clash metadata device plan ns, fits (source metadata device) -> sound_plan plan ->
  run join clash true (source metadata device) (made plan) = Ok ns ->
  exists g, get_metadata join clash (source metadata device) ns = Ok g /\
    forall k q, k <> k_good_sections -> k <> k_dropout_rate ->
      follow (k_statistics :: k :: q) g = follow (k_statistics :: k :: q) (source metadata device).
Proof. intros join clash metadata device plan ns. apply other_statistics. Qed.
Print Assumptions C103_other_statistics.

(** What the dry run says of good sections and dropout rates comes true.  The
    full property, for every entry of the dry run, is refuted below. *)
Theorem C103_promises_partial : forall join clash metadata device plan ns, fits (source metadata device) -> sound_plan plan ->
  run join clash true (source metadata device) (made plan) = Ok ns ->
  exists D g, dry_run_metadata join clash (source metadata device) (made plan) = Ok D /\
    get_metadata join clash (source metadata device) ns = Ok g /\
    forall p, p = p_good_sections \/ p = p_dropout_rate -> present p D -> present p g.
Proof. intros join clash metadata device plan ns. apply fulfilled. Qed.
Print Assumptions C103_promises_partial.

(** The dry run of every chain with [Clip] says that clipping will be recorded;
    after the run it never is. *)
Theorem C103_clip_refuted : forall join clash metadata device plan ns, fits (source metadata device) -> sound_plan plan ->
  ~ present p_clip (source metadata device) -> In Clip (kinds plan) ->
  run join clash true (source metadata device) (made plan) = Ok ns ->
  exists D g, dry_run_metadata join clash (source metadata device) (made plan) = Ok D /\ present p_clip D /\
    get_metadata join clash (source metadata device) ns = Ok g /\ ~ present p_clip g.
Proof. intros join clash metadata device plan ns. apply clip_unfulfilled. Qed.
Print Assumptions C103_clip_refuted.

(** The same for the energy among the statistics: it is put elsewhere. *)
Theorem C103_energy_refuted : forall join clash metadata device plan ns, fits (source metadata device) -> sound_plan plan ->
  ~ present p_energy (source metadata device) -> In TotalEnergy (kinds plan) ->
  run join clash true (source metadata device) (made plan) = Ok ns ->
  exists D g, dry_run_metadata join clash (source metadata device) (made plan) = Ok D /\ present p_energy D /\
    get_metadata join clash (source metadata device) ns = Ok g /\ ~ present p_energy g.
Proof. intros join clash metadata device plan ns. apply energy_unfulfilled. Qed.
Print Assumptions C103_energy_refuted.

(** Whatever the metadata, a chain with a dropout rate node upstream of a node
    other than [Apply] never runs. *)
Theorem C103_chained_refuted : forall join clash some m plan down k up,
  kinds plan = down ++ k :: up -> k <> Apply -> In DropoutRate up ->
  forall ns, run join clash some m (made plan) <> Ok ns.
Proof. exact never_chained. Qed.
Print Assumptions C103_chained_refuted.

(** Without a chunk the metadata of a chain with a dropout rate node cannot be
    read; those of other chains can. *)
Theorem C103_no_chunk_refuted : forall join clash metadata device plan ns, fits (source metadata device) -> sound_plan plan ->
  run join clash false (source metadata device) (made plan) = Ok ns ->
  (In DropoutRate (kinds plan) -> get_metadata join clash (source metadata device) ns = Err KeyError) /\
  (~ In DropoutRate (kinds plan) -> exists g, get_metadata join clash (source metadata device) ns = Ok g).
Proof. intros join clash metadata device plan ns. apply no_chunk. Qed.
Print Assumptions C103_no_chunk_refuted.

(** ** A case *)
Definition ex_metadata : list (key * meta) := [(20, Atom 3); (k_statistics, Dict [(k_good_sections, Atom 5)])].
Definition ex_device : list (key * meta) := [(k_measurements, Atom 1); (k_max_sample_period, Atom 60); (k_sample_period, Atom 6)].
Definition ex_plan : list (kind * nat * list (key * nat)) :=
  [(DropoutRate, 4, []); (TotalEnergy, 0, [(30, 100); (31, 90)]); (GoodSections, 7, []); (Clip, 0, [])].

Example C103_fits : fits (source ex_metadata ex_device) /\ sound_plan ex_plan.
Proof.
  assert (K1 : forall a : key, NoDup [a]) by (intros a; constructor; [intros []|constructor]).
  assert (K3 : forall a b c : key, a <> b -> a <> c -> b <> c -> NoDup [a; b; c]).
  { intros a b c H1 H2 H3. constructor; [intros [E|[E|[]]]; congruence|]. constructor; [intros [E|[]]; congruence|apply K1]. }
  split; [constructor|].
  - constructor; [apply K3; discriminate|]. intros k v [[= <- <-]|[[= <- <-]|[[= <- <-]|[]]]].
    + constructor.
    + constructor; [apply K1|]. intros k v [[= <- <-]|[]]. constructor.
    + constructor; [apply K3; discriminate|]. intros k v [[= <- <-]|[[= <- <-]|[[= <- <-]|[]]]]; constructor.
  - intros p v [<-|[<-|[<-|[<-|[<-|[<-|[<-|[]]]]]]]] F; cbn in F; try discriminate; injection F as <-; now eexists.
  - intros p v [->|[->|[a ->]]] F; cbn in F; try discriminate. injection F as <-. now eexists.
  - intros x [<-|[<-|[<-|[<-|[]]]]]; cbn; try constructor; [|apply K1]. intros [E|[]]; discriminate.
Qed.
Example C103_works : exists ns, run Nat.add (fun _ _ => Err TypeError) true (source ex_metadata ex_device) (made ex_plan) = Ok ns /\
  get_metadata Nat.add (fun _ _ => Err TypeError) (source ex_metadata ex_device) ns =
    Ok (Dict [(20, Atom 3); (k_statistics, Dict [(k_good_sections, Atom 12); (k_dropout_rate, Atom 4)]); (k_device, Dict ex_device);
              (k_total_energy, Dict [(30, Atom 100); (31, Atom 90)])]) /\
  ~ present p_clip (source ex_metadata ex_device) /\ ~ present p_energy (source ex_metadata ex_device) /\
  In Clip (kinds ex_plan) /\ In TotalEnergy (kinds ex_plan).
Proof.
  eexists. split; [vm_compute; reflexivity|]. split; [reflexivity|].
  split; [intros [v F]; discriminate|]. split; [intros [v F]; discriminate|]. split; vm_compute; tauto.
Qed.
(** The same nodes in another order: each is ready, but [Clip] cannot read. *)
Example C103_order : run Nat.add (fun _ _ => Err TypeError) true (source ex_metadata ex_device)
    (made [(TotalEnergy, 0, []); (Clip, 0, []); (DropoutRate, 4, [])]) = Err KeyError /\
  (forall down k up, [TotalEnergy; Clip; DropoutRate] = down ++ k :: up -> ready (source ex_metadata ex_device) up k) /\
  run Nat.add (fun _ _ => Err TypeError) true (source ex_metadata ex_device)
    (made [(Clip, 0, []); (TotalEnergy, 0, [])]) = Err UnsatisfiedRequirementsError /\
  (exists ns, run Nat.add (fun _ _ => Err TypeError) false (source ex_metadata ex_device) (made ex_plan) = Ok ns).
Proof.
  split; [reflexivity|]. split; [|split; [reflexivity|eexists; vm_compute; reflexivity]].
  intros [|a [|b [|c [|d down]]]] k up E; cbn in E; try discriminate; injection E; intros; subst; cbn.
  - split; [now eexists|]. right. now left.
  - now eexists.
  - now eexists.
Qed.
