(** C65: activity scripts. *)
From Coq Require Import Permutation.
From Verif Require Import Base ActivationsModel ActivationsSpec ScriptModel ScriptSpec ScriptProofs.
Open Scope Z_scope.

(** The script of a meter is in the order of time and tells exactly the first
    time of every activation (True) and the last (False). *)
Theorem C65_script sort_index activations s : sorts sort_index -> activity_script sort_index activations = Ok s ->
  in_time_order s /\ exists starts stops, Permutation s (map (fun t => (t, true)) starts ++ map (fun t => (t, false)) stops) /\
    Forall2 begins activations starts /\ Forall2 ends activations stops.
Proof. exact (script_thm sort_index activations s). Qed.
Print Assumptions C65_script.

(** For the activations that are found without border, or with a border if an
    off-period that counts has more rows than both borders, the script tells
    start, end, start, end, ..., whatever the chunks. *)
Theorem C65_by_turns_partial sort_index threshold min_off min_on border chunks m outs : sorts sort_index -> strictly_ordered (concat chunks) ->
  (border = 0%nat \/ Forall (fun c => dense c (2 * border) min_off) chunks) ->
  mapM (fun c => get_activations c min_off min_on border threshold) chunks = Ok outs -> activations_of m = Ok (concat outs) ->
  exists s, meter_script sort_index m s /\ by_turns (concat outs) s.
Proof. exact (meter_turns sort_index threshold min_off min_on border chunks m outs). Qed.
Print Assumptions C65_by_turns_partial.

(** The file has one script per building and dominant appliance: that of the
    last submeter with this dominant appliance. *)
Theorem C65_file sort_index buildings file : get_activity_script sort_index buildings = Ok file ->
  NoDup (map fst file) /\ forall k s, In (k, s) file <-> last_script sort_index (all_submeters buildings) k s.
Proof. exact (file_thm sort_index buildings file). Qed.
Print Assumptions C65_file.

(** It is written if every submeter has a dominant appliance and a script, and
    ends in an error at the first submeter without appliance. *)
Theorem C65_works sort_index buildings :
  (forall e, In e (all_submeters buildings) -> dominant (snd e) <> None /\ exists s, meter_script sort_index (snd e) s) ->
  exists file, get_activity_script sort_index buildings = Ok file.
Proof. exact (file_works sort_index buildings). Qed.
Print Assumptions C65_works.
Theorem C65_no_appliance sort_index buildings before b m after : all_submeters buildings = before ++ (b, m) :: after -> dominant m = None ->
  (forall e, In e before -> dominant (snd e) <> None /\ exists s, meter_script sort_index (snd e) s) ->
  get_activity_script sort_index buildings = Err AttributeError.
Proof. exact (file_no_dominant sort_index buildings before b m after). Qed.
Print Assumptions C65_no_appliance.

(** Insertion sort sorts. *)
Fixpoint ex_insert (a : Z * bool) (s : script) : script :=
  match s with [] => [a] | b :: r => if fst a <=? fst b then a :: b :: r else b :: ex_insert a r end.
Fixpoint ex_sort (s : script) : script := match s with [] => [] | a :: r => ex_insert a (ex_sort r) end.
Lemma ex_insert_ok a s : Permutation (a :: s) (ex_insert a s) /\ (in_time_order s -> in_time_order (ex_insert a s)).
Proof.
  induction s as [|b s [IP IO]]; [split; [reflexivity|intros _; exact I]|]. cbn [ex_insert]. destruct (fst a <=? fst b) eqn:E.
  - apply Z.leb_le in E. split; [reflexivity|]. intros H. split; [exact E|exact H].
  - apply Z.leb_gt in E. split; [eapply Permutation_trans; [apply perm_swap|apply perm_skip; exact IP]|]. intros H. apply order_cons in H. destruct H as [H1 H2]. apply order_cons. split; [|apply IO; exact H2].
    rewrite <- IP. constructor; [lia|exact H1].
Qed.
Lemma ex_sorts : sorts ex_sort.
Proof.
  intros s. induction s as [|a s [IP IO]]; [split; [constructor|exact I]|]. cbn [ex_sort]. destruct (ex_insert_ok a (ex_sort s)) as [H1 H2]. split; [|apply H2; exact IO].
  eapply Permutation_trans; [apply perm_skip; exact IP|exact H1].
Qed.

(** A kettle used twice. *)
Definition C65_chunk : list sample := [(0, Some 0); (6, Some 0); (12, Some 99); (18, Some 0); (24, Some 0); (30, Some 0); (36, Some 99); (42, Some 99); (48, Some 0); (54, Some 0)].
Example C65_kettle : exists outs, mapM (fun c => get_activations c 13 0 1 50) [C65_chunk] = Ok outs /\
  activity_script ex_sort (concat outs) = Ok [(0, true); (18, false); (24, true); (48, false)].
Proof. eexists. split; reflexivity. Qed.
Example C65_dense : dense C65_chunk (2 * 1) 13.
Proof.
  assert (H : forall i a, nth_error C65_chunk i = Some a -> fst a = 6 * Z.of_nat i).
  { intros i a. do 10 (destruct i as [|i]; [intros E; injection E as <-; reflexivity|]). destruct i; discriminate. }
  intros i j a b L1 L2 Ha Hb. rewrite (H i a Ha), (H j b Hb). lia.
Qed.
Example C65_file_ex : get_activity_script ex_sort
    [(1%nat, [{| dominant := Some (3%nat, 1%nat); activations_of := get_activations C65_chunk 13 0 1 50 |}])] =
  Ok [((1%nat, (3%nat, 1%nat)), [(0, true); (18, false); (24, true); (48, false)])].
Proof. reflexivity. Qed.

(** With the border of one row that is always used, a short pause makes the
    script tell two starts before an end. *)
Theorem C65_by_turns_refuted : exists chunk outs, strictly_ordered chunk /\ get_activations chunk 0 0 1 50 = Ok outs /\
  activity_script ex_sort outs = Ok [(0, true); (12, true); (18, false); (30, false)].
Proof.
  exists [(0, Some 0); (6, Some 0); (12, Some 99); (18, Some 0); (24, Some 99); (30, Some 0); (36, Some 0)]. eexists. split; [|split; reflexivity].
  intros i j a b L Ha Hb. do 7 (destruct i as [|i]; [do 7 (destruct j as [|j]; [try lia; injection Ha as <-; injection Hb as <-; cbn; lia|]); destruct j; discriminate|]). destruct i; discriminate.
Qed.
Print Assumptions C65_by_turns_refuted.

(** Two meters of a building with the same dominant appliance (an appliance
    fed by two meters): only the script of the second one is kept. *)
Theorem C65_same_appliance_refuted : exists m m' file s, get_activity_script ex_sort [(1%nat, [m; m'])] = Ok file /\ length file = 1%nat /\
  meter_script ex_sort m s /\ s <> [] /\ forall k, ~ In (k, s) file.
Proof.
  exists {| dominant := Some (3%nat, 1%nat); activations_of := get_activations C65_chunk 13 0 1 50 |}, {| dominant := Some (3%nat, 1%nat); activations_of := Ok [] |}.
  eexists _, _. split; [reflexivity|]. split; [reflexivity|]. split; [eexists; split; reflexivity|]. split; [discriminate|]. intros k [H|[]]. discriminate.
Qed.
Print Assumptions C65_same_appliance_refuted.
