(** C99: the root mean square errors of a disaggregation. *)
From Coq Require Import String Ascii QArith Reals Qreals Permutation Lia Lra.
From Verif Require Import Base LabelModel RmseModel RmseSpec RmseProofs RmseProofs2 RmseProofs3.
Import List. Open Scope list_scope. Open Scope nat_scope.

(** When the predictions have the columns of the ground truth in its order, and no instant twice,
    every meter gets one entry, in order, with its own error, and no two have one key: the label of
    a meter if no other has it, else the label and something in parentheses. *)
Theorem C99_errors_partial gt pred : table gt -> table pred -> map fst (cols pred) = map fst (cols gt) -> NoDup (index pred) -> index pred <> [] -> labelled gt ->
  exists out, compute_rmse gt pred true = Ok out /\ length out = length (cols gt) /\ NoDup (map fst out) /\
    forall i m g p s, nth_error (cols gt) i = Some (Met m, g) -> nth_error (cols pred) i = Some (Met m, p) -> meter_label true (e_meta m) = Ok s ->
      exists k e, nth_error out i = Some (k, e) /\ is_rms (both (index gt) g (combine (index pred) p)) e /\
        ((~ shared gt i s /\ k = Name s) \/ (shared gt i s /\ exists rest, k = Name (s ++ " (" ++ rest ++ ")"))).
Proof.
  intros _ T E N NE LB. assert (L : length (cols pred) = length (cols gt)) by (apply (f_equal (@length _)) in E; now rewrite !map_length in E).
  destruct (labelled_run gt pred T LB L N NE) as (out & R & Lo & ND & H). exists out. split; [exact R|]. split; [exact Lo|]. split; [exact ND|].
  intros i m g p s Gi Pi Ls. destruct (H i m g (Met m) p s Gi Pi Ls) as (k & e & Ki & Re & [K|[K ->]]); exists k, e || eexists _, e; (split; [exact Ki|]; split; [exact Re|]).
  - now left.
  - right. split; [exact K|]. unfold suffix. exists (bound "building" m ++ ", " ++ bound "instance" m)%string. now rewrite !LabelProofs.sapp_assoc.
Qed.
Print Assumptions C99_errors_partial.

(** Columns that are not labelled: names, or [pretty=False]. *)
Theorem C99_named_partial gt pred pretty : table gt -> table pred -> map fst (cols pred) = map fst (cols gt) -> NoDup (index pred) -> index pred <> [] ->
  NoDup (map (fun c => identity (fst c)) (cols gt)) -> (pretty = false \/ exists s g r, cols gt = (Name s, g) :: r) ->
  exists out, compute_rmse gt pred pretty = Ok out /\ map fst out = map fst (cols gt) /\
    forall i c g p, nth_error (cols gt) i = Some (c, g) -> nth_error (cols pred) i = Some (c, p) ->
      exists e, nth_error out i = Some (c, e) /\ is_rms (both (index gt) g (combine (index pred) p)) e.
Proof.
  intros _ T E N NE ND PR. assert (L : length (cols pred) = length (cols gt)) by (apply (f_equal (@length _)) in E; now rewrite !map_length in E).
  assert (LE : labels pretty (cols gt) = (false, map fst (cols gt))).
  { destruct PR as [->|(s & g & r & ->)]; [apply labels_plain|]. cbn [labels label_of map fst]. destruct pretty; now rewrite labels_plain. }
  destruct (plain_run gt pred pretty T L N NE) as (es & R & H); [now rewrite LE|rewrite LE; cbn [snd]; now rewrite map_map|]. rewrite LE in R. cbn [snd] in R.
  pose proof (errors_length _ _ _ _ _ L H) as Le. exists (combine (map fst (cols gt)) es). split; [exact R|]. split; [apply fst_combine; now rewrite map_length|].
  intros i c g p Gi Pi. assert (Hc : nth_error (combine (cols gt) (cols pred)) i = Some ((c, g), (c, p))) by (rewrite nth_combine, Gi, Pi; reflexivity).
  destruct (Forall2_nth _ _ _ _ _ H Hc) as (e & Ei & Re). exists e. split; [|exact Re]. rewrite nth_combine, nth_error_map, Gi, Ei. reflexivity.
Qed.
Print Assumptions C99_named_partial.

(** The order of the rows of the predictions does not matter. *)
Theorem C99_row_order gt p1 p2 pretty : table p1 -> table p2 -> NoDup (index p1) -> Permutation (index p1) (index p2) -> length (cols p1) = length (cols p2) ->
  (forall i c d a b, nth_error (cols p1) i = Some (c, a) -> nth_error (cols p2) i = Some (d, b) -> Permutation (combine (index p1) a) (combine (index p2) b)) ->
  compute_rmse gt p1 pretty = compute_rmse gt p2 pretty.
Proof. exact (rows_permuted gt p1 p2 pretty). Qed.
Print Assumptions C99_row_order.

(** Predictions without rows give no errors. *)
Theorem C99_empty gt pred pretty : index pred = [] -> length (cols gt) <= length (cols pred) -> compute_rmse gt pred pretty = Ok [].
Proof. exact (no_predictions gt pred pretty). Qed.
Print Assumptions C99_empty.

(** An appliance that is absent from the predictions is not left out. *)
Theorem C99_absent_refuted gt pred pretty : table pred -> NoDup (index pred) -> length (cols pred) < length (cols gt) -> compute_rmse gt pred pretty = Err IndexError.
Proof. exact (fewer_columns gt pred pretty). Qed.
Print Assumptions C99_absent_refuted.

(** Nor is one whose predictions are all missing: it is listed with NaN. *)
Theorem C99_missing_refuted gt pred m g p s : table gt -> table pred -> cols gt = [(Met m, g)] -> cols pred = [(Met m, p)] -> NoDup (index pred) -> index pred <> [] ->
  meter_label true (e_meta m) = Ok s -> ~ mentions "(" s -> Forall (fun v => v = None) p -> compute_rmse gt pred true = Ok [(Name s, None)].
Proof.
  intros T T' G P N NE Ls Ms F. destruct (C99_errors_partial gt pred T T') as (out & R & Lo & _ & H); auto; [now rewrite G, P| |].
  - unfold labelled. rewrite G. split; [repeat constructor; exists m, s; auto|]. intros [|i] [|j] ? ? ? ? ? D; cbn; try congruence; destruct i || destruct j; discriminate.
  - destruct (H 0 m g p s) as (k & e & K0 & Re & Ks); [now rewrite G|now rewrite P|exact Ls|]. rewrite R. rewrite G in Lo. destruct out as [|o [|? ?]]; try discriminate. cbn in K0. injection K0 as ->.
    assert (B : both (index gt) g (combine (index pred) p) = []).
    { clear -F. assert (X : forall r, Forall (fun v => snd v = None) r -> forall ix g, both ix g r = []).
      { intros r Fr. assert (Y : forall t, match find (fun r : Z * option Q => Z.eqb (fst r) t) r with Some (_, Some y) => False | _ => True end).
        { intros t. destruct (find _ r) as [[u [y|]]|] eqn:Ef; auto. apply find_some in Ef. rewrite Forall_forall in Fr. destruct Ef as [I _]. specialize (Fr _ I). discriminate. }
        induction ix as [|t ix IH]; intros [|x g0]; cbn [both]; try reflexivity. rewrite IH. specialize (Y t). destruct x; [|reflexivity].
        destruct (find (fun r : Z * option Q => Z.eqb (fst r) t) r) as [[? [?|]]|]; [easy|reflexivity|reflexivity]. }
      apply X. apply Forall_forall. intros [t v] I. apply in_combine_r in I. rewrite Forall_forall in F. now apply F. }
    rewrite B in Re. destruct e as [r|]; [now destruct Re|]. destruct Ks as [[_ ->]|[(j & n & h & D & Kj & _) _]]; [reflexivity|].
    exfalso. rewrite G in Kj. destruct j as [|[|j]]; [congruence|discriminate|discriminate].
Qed.
Print Assumptions C99_missing_refuted.

(** The columns are matched by position: predictions that agree with the ground truth, in another
    order of the columns, get errors. *)
Definition fridge (i : Z) : emeter := mkEM i 1 "REDD" "" (LabelModel.mkMeter None false [mkAppl (Some "fridge"%string) (Some 1%Z) None false]).
Definition kettle (i : Z) : emeter := mkEM i 1 "REDD" "" (LabelModel.mkMeter None false [mkAppl (Some "kettle"%string) (Some 1%Z) None false]).
Definition truth : frame := mkFrame [0; 6]%Z [(Met (fridge 1), [Some 0; Some 0]); (Met (kettle 2), [Some 5; Some 5])]%Q.
Definition swapped : frame := mkFrame [0; 6]%Z [(Met (kettle 2), [Some 5; Some 5]); (Met (fridge 1), [Some 0; Some 0])]%Q.
Lemma five_squared : Q2R (squares [(0, 5); (0, 5)]%Q / inject_Z 2)%Q = 25%R.
Proof. unfold Q2R. cbn. field. Qed.
Theorem C99_order_refuted : exists gt pred out r, table gt /\ table pred /\ index gt = index pred /\ Permutation (cols gt) (cols pred) /\ labelled gt /\
  compute_rmse gt pred true = Ok out /\ In (Name "Fridge", Some r) out /\ (0 < r)%R.
Proof.
  exists truth, swapped. eexists. exists (sqrt (Q2R (squares [(0, 5); (0, 5)]%Q / inject_Z 2)%Q)).
  split; [repeat constructor|]. split; [repeat constructor|]. split; [reflexivity|]. split; [apply perm_swap|]. split.
  { split.
    - repeat constructor; eexists; eexists; (split; [reflexivity|]; split; [reflexivity|]; cbn; intuition discriminate).
    - intros [|[|i]] [|[|j]] m n g h s D; cbn; try congruence; try (destruct i; discriminate); try (destruct j; discriminate); intros [= <- <-] [= <- <-] [= <-]; discriminate. }
  split; [reflexivity|]. split; [left; reflexivity|]. rewrite five_squared. apply sqrt_lt_R0. lra.
Qed.
Print Assumptions C99_order_refuted.

(** A column without a label makes meters that share a label one: the errors of all but the last are
    lost. *)
Definition three : frame := mkFrame [0]%Z [(Met (fridge 1), [Some 0]); (Met (fridge 2), [Some 0]); (Name "kettle", [Some 0])]%Q.
Definition three' : frame := mkFrame [0]%Z [(Met (fridge 1), [None]); (Met (fridge 2), [Some 3]); (Name "kettle", [Some 0])]%Q.
Theorem C99_merged_refuted : exists gt pred out e, table gt /\ table pred /\ map fst (cols gt) = map fst (cols pred) /\ index gt = index pred /\ NoDup (index pred) /\
  NoDup (map (fun c => identity (fst c)) (cols gt)) /\ compute_rmse gt pred true = Ok out /\ length out < length (cols gt) /\
  nth_error (cols gt) 1 = Some (Met (fridge 2), [Some 0%Q]) /\ nth_error (cols pred) 1 = Some (Met (fridge 2), [Some 3%Q]) /\
  nth_error out 0 = Some (Name "Fridge", e) /\ is_rms [(0, 3)%Q] e.
Proof.
  exists three, three'. eexists [(Name "Fridge", _); (Name "kettle", _)]. eexists. split; [repeat constructor|]. split; [repeat constructor|]. split; [reflexivity|]. split; [reflexivity|]. split; [repeat constructor; easy|]. split.
  - cbn. repeat constructor; cbn; intuition discriminate.
  - split; [reflexivity|]. split; [cbn; lia|]. split; [reflexivity|]. split; [reflexivity|]. split; [reflexivity|].
    apply (rms_of_pairs [(0, 3)%Q]). discriminate.
Qed.
Print Assumptions C99_merged_refuted.

(** Predictions with an instant twice raise ValueError, unless their index is that of the ground
    truth. *)
Theorem C99_repeats gt pred pretty : cols gt <> [] -> cols pred <> [] -> ~ NoDup (index pred) -> index gt <> index pred ->
  compute_rmse gt pred pretty = Err ValueError.
Proof. exact (repeats_raise gt pred pretty). Qed.
Print Assumptions C99_repeats.

(** What is added to a label that two meters have is never the numbers of the building and of the
    meter. *)
Theorem C99_suffix_refuted gt pred : table gt -> table pred -> map fst (cols pred) = map fst (cols gt) -> NoDup (index pred) -> index pred <> [] -> labelled gt ->
  exists out, compute_rmse gt pred true = Ok out /\
    forall i m g s, nth_error (cols gt) i = Some (Met m, g) -> meter_label true (e_meta m) = Ok s -> shared gt i s ->
      forall e, nth_error out i <> Some (Name (s ++ " (" ++ str_int (e_building m) ++ ", " ++ str_int (e_instance m) ++ ")"), e).
Proof.
  intros _ T E N NE LB. assert (L : length (cols pred) = length (cols gt)) by (apply (f_equal (@length _)) in E; now rewrite !map_length in E).
  destruct (labelled_run gt pred T LB L N NE) as (out & R & Lo & ND & H). exists out. split; [exact R|]. intros i m g s Gi Ls Sh e X.
  destruct (nth_error (cols pred) i) as [[c p]|] eqn:Pi; [|apply nth_error_None in Pi; assert (i < length (cols gt)) by (apply nth_error_Some; congruence); lia].
  destruct (H i m g c p s Gi Pi Ls) as (k & e' & Ki & _ & [[K _]|[_ ->]]); [easy|]. rewrite X in Ki. injection Ki as Ki _. symmetry in Ki. now apply suffix_not_numbers in Ki.
Qed.
Print Assumptions C99_suffix_refuted.

(** Two fridges and a kettle, and the rows of the predictions in another order. *)
Definition house : frame := mkFrame [0; 6]%Z [(Met (fridge 1), [Some 1; None]); (Met (fridge 2), [Some 0; Some 3]); (Met (kettle 3), [Some 2; Some 2])]%Q.
Definition answer : frame := mkFrame [6; 0]%Z [(Met (fridge 1), [Some 1; Some 1]); (Met (fridge 2), [Some 0; Some 3]); (Met (kettle 3), [Some 2; None])]%Q.
Definition answer' : frame := mkFrame [0; 6]%Z [(Met (fridge 1), [Some 1; Some 1]); (Met (fridge 2), [Some 3; Some 0]); (Met (kettle 3), [None; Some 2])]%Q.
Example C99_example_house : table house /\ table answer /\ map fst (cols answer) = map fst (cols house) /\ NoDup (index answer) /\ index answer <> [] /\ labelled house /\ shared house 0 "Fridge" /\ ~ shared house 2 "Kettle".
Proof.
  split; [repeat constructor|]. split; [repeat constructor|]. split; [reflexivity|]. split; [repeat constructor; cbn; intuition discriminate|]. split; [discriminate|]. split; [|split].
  - split.
    + repeat constructor; eexists; eexists; (split; [reflexivity|]; split; [reflexivity|]; cbn; intuition discriminate).
    + intros [|[|[|i]]] [|[|[|j]]] m n g h s D; cbn; try congruence; try (destruct i; discriminate); try (destruct j; discriminate); intros [= <- <-] [= <- <-] [= <-]; discriminate.
  - exists 1, (fridge 2), [Some 0; Some 3]%Q. split; [lia|]. split; reflexivity.
  - intros (j & n & h & D & K & Ls). destruct j as [|[|[|j]]]; cbn in K; try congruence; [injection K as <- <-|injection K as <- <-|destruct j; discriminate]; discriminate.
Qed.
Example C99_example_keys : match compute_rmse house answer true with
  | Ok [(Name a, _); (Name b, _); (Name c, _)] =>
      a = "Fridge (<bound method ElecMeter.building of ElecMeter(instance=1, building=1, dataset='REDD', appliances=[Appliance(type='fridge', instance=1)])>, <bound method ElecMeter.instance of ElecMeter(instance=1, building=1, dataset='REDD', appliances=[Appliance(type='fridge', instance=1)])>)"%string
      /\ a <> b /\ c = "Kettle"%string
  | _ => False
  end.
Proof. vm_compute. split; [reflexivity|]. split; [discriminate|reflexivity]. Qed.
Example C99_example_rows : table answer' /\ Permutation (index answer) (index answer') /\ compute_rmse house answer true = compute_rmse house answer' true.
Proof.
  split; [repeat constructor|]. split; [apply perm_swap|]. apply C99_row_order; [repeat constructor|repeat constructor|repeat constructor; cbn; intuition discriminate|apply perm_swap|reflexivity|].
  intros [|[|[|i]]] c d a b; cbn; try (intros [= <- <-] [= <- <-]; apply perm_swap); destruct i; discriminate.
Qed.
Example C99_example_absent : table (mkFrame [0]%Z []) /\ length (cols (mkFrame [0]%Z [])) < length (cols truth) /\ compute_rmse truth (mkFrame [0]%Z []) true = Err IndexError.
Proof. split; [constructor|]. split; [cbn; lia|]. apply C99_absent_refuted; [constructor|repeat constructor; easy|cbn; lia]. Qed.
Example C99_example_missing : compute_rmse (mkFrame [0]%Z [(Met (fridge 1), [Some 1%Q])]) (mkFrame [0]%Z [(Met (fridge 1), [None])]) true = Ok [(Name "Fridge", None)].
Proof. reflexivity. Qed.
Example C99_example_repeats : ~ NoDup [0; 0]%Z /\ compute_rmse truth (mkFrame [0; 0]%Z (cols swapped)) true = Err ValueError.
Proof. split; [|reflexivity]. intros N. apply NoDup_cons_iff in N as [N _]. apply N. now left. Qed.
Example C99_example_named : NoDup (map (fun c => identity (fst c)) (cols three)) /\ fst (labels true [(Name "a", []); (Met (fridge 1), [])]) = false.
Proof. split; [|reflexivity]. cbn. repeat constructor; cbn; intuition discriminate. Qed.
Example C99_example_empty : compute_rmse truth (mkFrame [] (map (fun c => (fst c, [])) (cols truth))) true = Ok [].
Proof. apply C99_empty; [reflexivity|cbn; lia]. Qed.
