(** The metadata of a chain of nodes. *)
From Coq Require Import Lia.
From Verif Require Import Base TimeFrameModel StoreModel EnergyModel PipelineModel PipelineSpec PipelineProofs ChainModel ChainSpec ChainProofs.
Import List. Open Scope list_scope. Open Scope nat_scope.

(** The sorts of the entries that the nodes know of. *)
Definition slot (p : list key) : option bool :=
  match p with
  | [] | [0] | [4] | [4; 5] | [6] | [6; 7] | [10] => Some true
  | [6; 9] | [6; 8] | [10; _] => Some false
  | _ => None
  end.

Lemma fits_conf m : fits m -> conf slot m.
Proof.
  intros [W D A] p v F. destruct (slot p) as [[|]|] eqn:E; [| |exact I].
  - apply (D p v); [|exact F]. clear - E.
    unfold p_clip, p_energy, k_device, k_preprocessing_applied, k_statistics, k_total_energy, k_clip, k_energy.
    destruct p as [|a p]; [now left|].
    do 11 (destruct a as [|a]; [destruct p as [|b p]; cbn in E; try discriminate; cbn; intuition;
      do 11 (destruct b as [|b]; [destruct p; cbn in E; try discriminate; intuition|]); cbn in E; try discriminate; destruct p; discriminate|]).
    discriminate.
  - apply (A p v); [|exact F]. clear - E.
    unfold p_good_sections, p_dropout_rate, p_total_energy, k_good_sections, k_dropout_rate, k_total_energy, k_statistics.
    destruct p as [|a p]; [discriminate|].
    do 11 (destruct a as [|a]; [destruct p as [|b p]; [cbn in E; discriminate|];
      destruct p as [|c p]; [|cbn in E; exfalso; do 11 (destruct b as [|b]; [discriminate|]); discriminate];
      try (right; right; now exists b); cbn in E; 
      do 11 (destruct b as [|b]; [try discriminate; now auto|]); discriminate|]).
    discriminate.
Qed.

Definition slotted (m : meta) : Prop := forall p, present p m -> slot p <> None.

Lemma slotted_shared_l a b : slotted a -> shared slot a b.
Proof. intros S p P _. now apply S. Qed.
Lemma slotted_shared_r a b : slotted b -> shared slot a b.
Proof. intros S p _ P. now apply S. Qed.

Lemma follow_one k q a v : follow (k :: q) (Dict [(a, v)]) = if Nat.eq_dec k a then follow q v else None.
Proof. cbn. destruct (Nat.eq_dec k a); reflexivity. Qed.

Definition proper (m : meta) : Prop := well_formed m /\ conf slot m /\ slotted m.

Lemma proper_empty : proper (Dict []).
Proof.
  split; [|split].
  - constructor; [constructor|intros k v []].
  - intros [|k p] v F; [|discriminate]. injection F as <-. now exists [].
  - intros [|k p] [v F]; [discriminate|discriminate].
Qed.

(** Two levels above a value without entries. *)
Lemma proper_two a b leaf (s : bool) : slot [a] = Some true -> slot [a; b] = Some s ->
  leaf = (if s then Dict [] else leaf) -> (s = false -> is_atom leaf) ->
  proper (Dict [(a, Dict [(b, leaf)])]).
Proof.
  intros S1 S2 L1 L2.
  assert (N : forall k q, follow (k :: q) leaf = None).
  { intros k q. destruct s; [now rewrite L1|]. destruct (L2 eq_refl) as [n ->]. reflexivity. }
  assert (ONE : forall (k : key) v, well_formed v -> well_formed (Dict [(k, v)])).
  { intros k v W. constructor; [constructor; [intros []|constructor]|]. intros j w [E|[]]. injection E as <- <-. exact W. }
  split; [|split].
  - apply ONE, ONE. destruct s; [rewrite L1; apply proper_empty|]. destruct (L2 eq_refl) as [n ->]. constructor.
  - intros [|k p] v F; [injection F as <-; now eexists|]. rewrite follow_one in F.
    destruct (Nat.eq_dec k a) as [->|]; [|discriminate]. destruct p as [|j p]; [injection F as <-; rewrite S1; now eexists|].
    rewrite follow_one in F. destruct (Nat.eq_dec j b) as [->|]; [|discriminate].
    destruct p as [|i p]; [|now rewrite N in F]. injection F as <-. rewrite S2.
    destruct s; [rewrite L1; now eexists|now apply L2].
  - intros [|k p] [v F]; [discriminate|]. rewrite follow_one in F.
    destruct (Nat.eq_dec k a) as [->|]; [|discriminate]. destruct p as [|j p]; [now rewrite S1|].
    rewrite follow_one in F. destruct (Nat.eq_dec j b) as [->|]; [|discriminate].
    destruct p as [|i p]; [now rewrite S2|now rewrite N in F].
Qed.

Lemma proper_post k : proper (postconditions k).
Proof.
  destruct k; cbn [postconditions].
  - now apply (proper_two _ _ _ true).
  - apply proper_empty.
  - apply (proper_two _ _ _ false); try reflexivity. intros _. now eexists.
  - now apply (proper_two _ _ _ true).
  - apply (proper_two _ _ _ false); try reflexivity. intros _. now eexists.
Qed.

Lemma entry_atoms l k : lookup_key k (map (fun e : key * nat => (fst e, Atom (snd e))) l) =
  match find (fun e => if Nat.eq_dec k (fst e) then true else false) l with Some e => Some (Atom (snd e)) | None => None end.
Proof.
  induction l as [|[j n] r IH]; cbn; [reflexivity|]. destruct (Nat.eq_dec k j) as [->|N]; [now rewrite Nat.eqb_refl|].
  apply Nat.eqb_neq in N. now rewrite N.
Qed.

Lemma proper_energies l : NoDup (map fst l) -> proper (Dict [(k_total_energy, Dict (map (fun e : key * nat => (fst e, Atom (snd e))) l))]).
Proof.
  intros ND. set (d := map _ l).
  assert (A : forall k v, lookup_key k d = Some v -> is_atom v).
  { intros k v. unfold d. rewrite entry_atoms. match goal with |- context [find ?f l] => destruct (find f l) end; [|discriminate]. intros [= <-]. now eexists. }
  assert (K : NoDup (map fst d)).
  { unfold d. rewrite map_map. exact ND. }
  split; [|split].
  - constructor; [constructor; [intros []|constructor]|]. intros j w [E|[]]. injection E as <- <-.
    constructor; [exact K|]. intros k v I. apply in_lookup in I; [|exact K]. destruct (A _ _ I) as [n ->]. constructor.
  - intros [|k p] v F; [injection F as <-; now eexists|]. rewrite follow_one in F.
    destruct (Nat.eq_dec k k_total_energy) as [->|]; [|discriminate].
    destruct p as [|j p]; [injection F as <-; now exists d|].
    rewrite follow_cons in F. destruct (lookup_key j d) as [w|] eqn:L; [|discriminate].
    destruct (A _ _ L) as [n ->]. destruct p as [|i p]; [|discriminate]. injection F as <-. now exists n.
  - intros [|k p] [v F]; [discriminate|]. rewrite follow_one in F.
    destruct (Nat.eq_dec k k_total_energy) as [->|]; [|discriminate].
    destruct p as [|j p]; [discriminate|].
    rewrite follow_cons in F. destruct (lookup_key j d) as [w|] eqn:L; [|discriminate].
    destruct (A _ _ L) as [n ->]. destruct p as [|i p]; [|discriminate]. discriminate.
Qed.

Section External.
Variable join : nat -> nat -> nat.
Variable clash : meta -> meta -> res meta.

Record dry (m : meta) (chain : list node) (D : meta) : Prop := mkDry {
  d_wf : well_formed D;
  d_conf : conf slot D;
  d_present : forall p, present p D <-> present p m \/ exists n, In n chain /\ present p (postconditions (n_kind n)) }.

Lemma dry_ok m chain : fits m -> exists D, dry_run_metadata join clash m chain = Ok D /\ dry m chain D.
Proof.
  intros F. induction chain as [|n up (D & E & [W C P])].
  - exists m. split; [reflexivity|]. constructor; [apply F|now apply fits_conf|].
    intros p. split; [now left|]. intros [H|(n & [] & _)]. exact H.
  - cbn [dry_run_metadata]. rewrite E. cbn [bind].
    destruct (proper_post (n_kind n)) as (W' & C' & S').
    destruct (merged_ok join clash D slot (postconditions (n_kind n)) W' W C' C) as (c & M & J).
    { now apply slotted_shared_l. }
    exists c. split; [exact M|]. constructor.
    + apply J.
    + apply J.
    + intros p. rewrite (present_joined join clash _ _ _ _ J), P. split.
      * intros [H|[H|(x & I & H)]]; [right; exists n; split; [now left|exact H]|now left|right; exists x; split; [now right|exact H]].
      * intros [H|(x & [->|I] & H)]; [now right; left|now left|right; right; now exists x].
Qed.

Definition fine (n : node) : Prop :=
  n_results n = None \/ exists r, n_results n = Some (Ok r) /\ proper r.
Definition answer_at (p : list key) (n : node) : option nat :=
  match n_results n with
  | Some (Ok r) => match follow p r with Some (Atom b) => Some b | _ => None end
  | _ => None
  end.

Record got (m : meta) (chain : list node) (g : meta) : Prop := mkGot {
  g_wf : well_formed g;
  g_conf : conf slot g;
  g_kept : forall p, (forall n r, In n chain -> n_results n = Some (Ok r) -> follow p r = None) -> follow p g = follow p m;
  g_present : forall p, present p g <-> present p m \/ exists n r, In n chain /\ n_results n = Some (Ok r) /\ present p r;
  g_answers : forall p, slot p = Some false ->
    follow p g = fold_right (fun n acc => gather join acc (answer_at p n)) (follow p m) chain }.

Lemma get_ok m chain : fits m -> (forall n, In n chain -> fine n) ->
  exists g, get_metadata join clash m chain = Ok g /\ got m chain g.
Proof.
  intros F. induction chain as [|n up IH]; intros FN.
  - exists m. split; [reflexivity|]. constructor; [apply F|now apply fits_conf|reflexivity| |reflexivity].
    intros p. split; [now left|]. intros [H|(n & r & [] & _)]. exact H.
  - destruct IH as (g & E & [W C K P A]); [intros x I; apply FN; now right|].
    cbn [get_metadata]. destruct (FN n (or_introl eq_refl)) as [N|(r & N & W' & C' & S')]; rewrite N.
    + exists g. split; [exact E|]. constructor; [exact W|exact C| | |].
      * intros p H. apply K. intros x r I. apply H. now right.
      * intros p. rewrite P. split; (intros [H|(x & r & I & R & H)]; [now left|right]).
        -- exists x, r. split; [now right|easy].
        -- destruct I as [->|I]; [congruence|]. now exists x, r.
      * intros p S. cbn [fold_right]. rewrite <- (A p S). unfold answer_at. now rewrite N.
    + rewrite E. cbn [bind].
      destruct (merged_ok join clash r slot g W W' C C') as (c & M & J); [now apply slotted_shared_r|].
      exists c. split; [exact M|]. constructor; [apply J|apply J| | |].
      * intros p H. rewrite (j_old _ _ _ _ _ J p); [|apply (H n r); [now left|exact N]].
        apply K. intros x r' I. apply H. now right.
      * intros p. rewrite (present_joined join clash _ _ _ _ J), P. split.
        -- intros [[H|(x & r' & I & H)]|H]; [now left|right; exists x, r'; split; [now right|exact H]|].
           right. exists n, r. split; [now left|easy].
        -- intros [H|(x & r' & [->|I] & R & H)]; [now left; left| |left; right; now exists x, r'].
           right. congruence.
      * intros p S. cbn [fold_right]. rewrite <- (A p S). unfold answer_at. rewrite N.
        destruct (follow p r) as [v|] eqn:FR.
        -- pose proof (C' p v FR) as V. rewrite S in V. destruct V as [b ->].
           destruct (follow p g) as [w|] eqn:FG.
           ++ pose proof (C p w FG) as V. rewrite S in V. destruct V as [a ->]. cbn. now apply (j_both _ _ _ _ _ J).
           ++ cbn. rewrite (j_new _ _ _ _ _ J p FG). exact FR.
        -- cbn. now apply (j_old _ _ _ _ _ J).
Qed.

(** A [DropoutRate] node without rows. *)
Definition broken (n : node) : Prop := n_results n = Some (Err KeyError).

Lemma get_broken m chain n : In n chain -> broken n -> forall g, get_metadata join clash m chain <> Ok g.
Proof.
  induction chain as [|x up IH]; intros I B g; [destruct I|]. cbn [get_metadata]. destruct I as [->|I].
  - rewrite B. destruct (get_metadata join clash m up); discriminate.
  - specialize (IH I B). destruct (n_results x) as [r|]; [|apply IH].
    destruct (get_metadata join clash m up) as [u|e]; [now destruct (IH u)|discriminate].
Qed.

Lemma get_broken_error m chain n : fits m -> (forall x, In x chain -> fine x \/ broken x) -> In n chain -> broken n ->
  get_metadata join clash m chain = Err KeyError.
Proof.
  intros F. induction chain as [|x up IH]; intros FB I B; [destruct I|].
  assert (UP : (exists g, get_metadata join clash m up = Ok g) \/ get_metadata join clash m up = Err KeyError).
  { clear IH I. induction up as [|y up IH]; [left; now exists m|].
    destruct IH as [[g E]|E]; [intros z [->|I]; apply FB; [now left|now right; right]| |].
    - destruct (FB y (or_intror (or_introl eq_refl))) as [FY|BY].
      + assert (ALL : (forall z, In z up -> fine z) \/ exists z, In z up /\ broken z).
        { assert (Q : forall z, In z up -> fine z \/ broken z) by (intros z I; apply FB; now right; right).
          clear - Q. induction up as [|z up IH]; [left; intros z []|].
          destruct IH as [H|(w & I & H)]; [intros w I; apply Q; now right| |right; exists w; split; [now right|exact H]].
          destruct (Q z (or_introl eq_refl)) as [H'|H'].
          - left. intros w [->|I]; auto.
          - right. exists z. split; [now left|exact H']. }
        destruct ALL as [ALL|(z & I & BZ)].
        * left. destruct (get_ok m (y :: up) F) as (g' & E' & _); [|now exists g'].
          intros z [->|I]; auto.
        * exfalso. now apply (get_broken m up z I BZ g).
      + right. cbn [get_metadata]. rewrite BY, E. reflexivity.
    - right. cbn [get_metadata]. destruct (n_results y); rewrite E; reflexivity. }
  cbn [get_metadata]. destruct I as [->|I].
  - rewrite B. destruct UP as [[g ->]| ->]; reflexivity.
  - rewrite (IH (fun y J => FB y (or_intror J)) I B). now destruct (n_results x).
Qed.

(** ** Checks *)
Lemma one_requirement D a b rest : conf slot D -> slot [a] = Some true ->
  exists l, find_unsatisfied D (Dict ((a, Dict [(b, AnyValue)]) :: rest)) = (do o <- find_unsatisfied D (Dict rest); Ok (l ++ o)) /\
    (l = [] <-> present [a; b] D).
Proof.
  intros C S. destruct D as [| |d] eqn:DD.
  1,2: exfalso; specialize (C [] _ eq_refl); destruct C; discriminate.
  unfold present. rewrite follow_cons. cbn [find_unsatisfied]. destruct (lookup_key a d) as [w|] eqn:L.
  - assert (V : is_dict w). { specialize (C [a] w). rewrite S in C. apply C. now rewrite follow_cons, L. }
    destruct V as [e ->]. rewrite follow_cons. cbn [follow]. destruct (lookup_key b e) as [x|] eqn:M.
    + exists []. split; [reflexivity|]. split; [now exists x|reflexivity].
    + exists [NotInState b AnyValue]. split; [reflexivity|]. split; [discriminate|intros [v V]; discriminate].
  - exists [NotInState a (Dict [(b, AnyValue)])]. split; [reflexivity|]. split; [discriminate|intros [v V]; discriminate].
Qed.

Lemma check_one D a b : conf slot D -> slot [a] = Some true ->
  (check_requirements D (Dict [(a, Dict [(b, AnyValue)])]) = None /\ present [a; b] D) \/
  (check_requirements D (Dict [(a, Dict [(b, AnyValue)])]) = Some UnsatisfiedRequirementsError /\ ~ present [a; b] D).
Proof.
  intros C S. destruct (one_requirement D a b [] C S) as (l & E & P). unfold check_requirements. rewrite E. cbn.
  rewrite app_nil_r. destruct l as [|x l]; [left; split; [reflexivity|now apply P]|].
  right. split; [reflexivity|]. rewrite <- P. discriminate.
Qed.

Lemma check_two D a b a' b' : conf slot D -> slot [a] = Some true -> slot [a'] = Some true ->
  (check_requirements D (Dict [(a, Dict [(b, AnyValue)]); (a', Dict [(b', AnyValue)])]) = None /\ present [a; b] D /\ present [a'; b'] D) \/
  (check_requirements D (Dict [(a, Dict [(b, AnyValue)]); (a', Dict [(b', AnyValue)])]) = Some UnsatisfiedRequirementsError /\
   ~ (present [a; b] D /\ present [a'; b'] D)).
Proof.
  intros C S S'. destruct (one_requirement D a b [(a', Dict [(b', AnyValue)])] C S) as (l & E & P).
  destruct (one_requirement D a' b' [] C S') as (l' & E' & P'). unfold check_requirements. rewrite E, E'. cbn.
  rewrite app_nil_r. rewrite <- P, <- P'.
  destruct l as [|x l]; [destruct l' as [|x l']|]; cbn; [left; now repeat split|right; split; [reflexivity|intros [_ H]; discriminate]|].
  right. split; [reflexivity|intros [H _]; discriminate].
Qed.

Lemma post_two p k : present p (postconditions k) -> (exists a b, p = [a; b]) ->
  (k = Clip /\ p = p_clip) \/ (k = GoodSections /\ p = p_good_sections) \/ (k = TotalEnergy /\ p = p_energy) \/ (k = DropoutRate /\ p = p_dropout_rate).
Proof.
  intros [v F] (a & b & ->). destruct k; cbn [postconditions] in F; rewrite ?follow_one in F.
  all: try (cbn in F; discriminate).
  all: match type of F with context [Nat.eq_dec ?x ?y] => destruct (Nat.eq_dec x y) as [->|]; [|discriminate] end.
  all: rewrite ?follow_one in F.
  all: match type of F with context [Nat.eq_dec ?x ?y] => destruct (Nat.eq_dec x y) as [->|]; [|discriminate] end.
  all: tauto.
Qed.

Lemma dry_device m chain D b : dry m chain D -> (present [k_device; b] D <-> present [k_device; b] m).
Proof.
  intros [W C P]. rewrite P. split; [|now left]. intros [H|(n & I & H)]; [exact H|].
  apply post_two in H; [|now exists k_device, b]. destruct H as [[_ H]|[[_ H]|[[_ H]|[_ H]]]]; discriminate.
Qed.

Lemma dry_clip m chain D : dry m chain D -> (present p_clip D <-> present p_clip m \/ In Clip (map n_kind chain)).
Proof.
  intros [W C P]. rewrite P. apply or_iff_compat_l. split.
  - intros (n & I & H). apply post_two in H; [|now exists k_preprocessing_applied, k_clip].
    destruct H as [[H _]|[[_ H]|[[_ H]|[_ H]]]]; try discriminate. rewrite <- H. now apply in_map.
  - intros I. apply in_map_iff in I as (n & E & I). exists n. split; [exact I|]. rewrite E. now eexists.
Qed.

Lemma check_ready m up k : fits m ->
  (check join clash m up k = Ok tt /\ ready m (map n_kind up) k) \/
  (check join clash m up k = Err UnsatisfiedRequirementsError /\ ~ ready m (map n_kind up) k).
Proof.
  intros F. destruct (dry_ok m up F) as (D & E & DD). pose proof (d_conf _ _ _ DD) as C. unfold check. rewrite E. cbn [bind].
  pose proof (dry_device m up D) as V. destruct k; cbn [requirements ready].
  - destruct (check_one D k_device k_measurements C eq_refl) as [[-> P]|[-> P]]; rewrite (V _ DD) in P; auto.
  - left. split; [|exact I]. reflexivity.
  - destruct (check_one D k_device k_max_sample_period C eq_refl) as [[-> P]|[-> P]]; rewrite (V _ DD) in P; auto.
  - destruct (check_two D k_device k_max_sample_period k_preprocessing_applied k_clip C eq_refl eq_refl) as [[-> P]|[-> P]];
      rewrite (V _ DD), (dry_clip _ _ _ DD) in P; auto.
  - destruct (check_one D k_device k_sample_period C eq_refl) as [[-> P]|[-> P]]; rewrite (V _ DD) in P; auto.
Qed.
End External.
