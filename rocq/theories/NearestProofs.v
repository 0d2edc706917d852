From Verif Require Import Base NearestModel NearestSpec.
From Coq Require Import QArith Qabs Permutation Sorted Qround Lqa.
Open Scope nat_scope.

(** ** find_nearest *)

Lemma get_some {A} (l : list A) i x : nth_error l i = Some x -> get l i = Ok x.
Proof. unfold get. intros ->. reflexivity. Qed.

Lemma sorts_lt p l i a : sorts p l -> nth_error p i = Some a -> a < length l.
Proof.
  intros [H _] E. apply nth_error_In in E. apply (Permutation_in _ H) in E. apply in_seq in E. lia.
Qed.

Lemma sorts_values p l : sorts p l -> exists s, mapM (get l) p = Ok s /\ Forall2 (fun a x => nth_error l a = Some x) p s.
Proof.
  intros H. assert (HF : Forall (fun a => a < length l) p).
  { rewrite Forall_forall. intros a Ha. apply In_nth_error in Ha. destruct Ha as [i Hi]. exact (sorts_lt _ _ _ _ H Hi). }
  clear H. induction p as [|a p IH]; [exists []; split; constructor|]. apply Forall_cons_iff in HF. destruct HF as [H1 H2].
  destruct (IH H2) as (s & E & F). destruct (nth_error l a) as [x|] eqn:Ea; [|apply nth_error_None in Ea; lia].
  exists (x :: s). cbn [mapM]. rewrite (get_some _ _ _ Ea), E. split; [reflexivity|constructor; assumption].
Qed.

Lemma F2_nth {A B} (R : A -> B -> Prop) l m : Forall2 R l m -> forall i a, nth_error l i = Some a -> exists b, nth_error m i = Some b /\ R a b.
Proof.
  induction 1 as [|x y l m Hxy _ IH]; intros i a Hi; [destruct i; discriminate|]. destruct i as [|i]; cbn in *; [injection Hi as <-; eauto|eauto].
Qed.

Lemma F2_nth_r {A B} (R : A -> B -> Prop) l m : Forall2 R l m -> forall i b, nth_error m i = Some b -> exists a, nth_error l i = Some a /\ R a b.
Proof.
  induction 1 as [|x y l m Hxy _ IH]; intros i a Hi; [destruct i; discriminate|]. destruct i as [|i]; cbn in *; [injection Hi as <-; eauto|eauto].
Qed.

Lemma F2_len {A B} (R : A -> B -> Prop) l m : Forall2 R l m -> length l = length m.
Proof. induction 1; cbn; lia. Qed.

(** The sorted array is sorted and has the same elements. *)
Lemma sorted_array p l s : sorts p l -> Forall2 (fun a x => nth_error l a = Some x) p s ->
  (forall i j x y, i <= j -> nth_error s i = Some x -> nth_error s j = Some y -> (x <= y)%Z) /\
  (forall y, In y l -> exists j, nth_error s j = Some y) /\ length s = length l.
Proof.
  intros [HP HS] F. split; [|split].
  - intros i j x y Hij Hx Hy. destruct (Nat.eq_dec i j) as [->|Hne]; [assert (x = y) by congruence; lia|].
    destruct (F2_nth_r _ _ _ F i x Hx) as (a & Ha & Ea). destruct (F2_nth_r _ _ _ F j y Hy) as (b & Hb & Eb).
    destruct (HS i j a b) as (x' & y' & E1 & E2 & E3); [lia|exact Ha|exact Hb|]. congruence.
  - intros y Hy. apply In_nth_error in Hy. destruct Hy as [k Hk].
    assert (Hin : In k p). { apply (Permutation_in _ (Permutation_sym HP)). apply in_seq. assert (nth_error l k <> None) by congruence. apply nth_error_Some in H. lia. }
    apply In_nth_error in Hin. destruct Hin as [j Hj]. destruct (F2_nth _ _ _ F j k Hj) as (y' & Hy' & E). exists j. congruence.
  - rewrite <- (F2_len _ _ _ F). rewrite (Permutation_length HP), seq_length. reflexivity.
Qed.

Lemma searchsorted_spec s t : (forall i j x y, i <= j -> nth_error s i = Some x -> nth_error s j = Some y -> (x <= y)%Z) ->
  searchsorted s t <= length s /\
  (forall j y, j < searchsorted s t -> nth_error s j = Some y -> (y < t)%Z) /\
  (forall j y, searchsorted s t <= j -> nth_error s j = Some y -> (t <= y)%Z).
Proof.
  induction s as [|x s IH]; intros HS; cbn [searchsorted].
  - split; [cbn; lia|]. split; intros j y Hj Hy; [lia|destruct j; discriminate].
  - destruct IH as (I1 & I2 & I3).
    { intros i j a b Hij Ha Hb. apply (HS (S i) (S j)); [lia|exact Ha|exact Hb]. }
    destruct (x <? t)%Z eqn:E; cbn [length].
    + split; [lia|]. split; intros [|j] y Hj Hy; cbn in Hy; try lia.
      * injection Hy as <-. lia.
      * apply (I2 j); [lia|exact Hy].
      * apply (I3 j); [lia|exact Hy].
    + split; [lia|]. split; intros j y Hj Hy; [lia|]. assert ((x <= y)%Z); [|lia]. apply (HS 0 j); [lia|reflexivity|exact Hy].
Qed.

Lemma nearest_one_spec l p s t : sorts p l -> Forall2 (fun a x => nth_error l a = Some x) p s -> l <> [] ->
  exists i x, nearest_one l p s (Some t) = Ok (i, Some (t - x)%Z) /\ nth_error l i = Some x /\ closest l t i.
Proof.
  intros HP F Hne. destruct (sorted_array _ _ _ HP F) as (S1 & S2 & S3). destruct (searchsorted_spec s t S1) as (Q1 & Q2 & Q3).
  set (n := length s). assert (Hn : 0 < n) by (subst n; rewrite S3; destruct l; [contradiction|cbn; lia]).
  unfold nearest_one. fold n. set (i1 := searchsorted s t) in *.
  assert (G : forall i, i < n -> exists x, nth_error s i = Some x).
  { intros i Hi. destruct (nth_error s i) as [x|] eqn:E; [eauto|]. apply nth_error_None in E. subst n. lia. }
  destruct (G (Nat.min i1 (n - 1)) ltac:(lia)) as [a3 H3]. destruct (G (Nat.min (i1 - 1) (n - 1)) ltac:(lia)) as [a2 H2].
  rewrite (get_some _ _ _ H3), (get_some _ _ _ H2). cbn [bind].
  set (k := if (a3 - t <=? t - a2)%Z then Nat.min i1 (n - 1) else Nat.min (i1 - 1) (n - 1)).
  assert (Hk : k < n) by (subst k; destruct (a3 - t <=? t - a2)%Z; lia).
  destruct (G k Hk) as [x Hx]. destruct (F2_nth_r _ _ _ F k x Hx) as (i & Hi & Ei). rewrite (get_some _ _ _ Hi). cbn [bind]. rewrite (get_some _ _ _ Ei). cbn [bind].
  exists i, x. split; [reflexivity|]. split; [exact Ei|]. exists x. split; [exact Ei|]. intros y Hy. apply S2 in Hy. destruct Hy as [j Hj].
  assert (Hxx : x = if (a3 - t <=? t - a2)%Z then a3 else a2) by (subst k; destruct (a3 - t <=? t - a2)%Z; congruence).
  (* where y lies *)
  assert (Hjn : j < n) by (assert (nth_error s j <> None) by congruence; apply nth_error_Some in H; subst n; lia).
  destruct (Nat.lt_ge_cases j i1) as [Lj|Lj].
  - (* y < t, y <= a2 < t or *)
    pose proof (Q2 _ _ Lj Hj). assert (i1 - 1 < n) by lia. replace (Nat.min (i1 - 1) (n - 1)) with (i1 - 1) in H2 by lia.
    assert ((y <= a2)%Z) by (apply (S1 j (i1 - 1)); [lia|exact Hj|exact H2]). assert ((a2 < t)%Z) by (apply (Q2 (i1 - 1)); [lia|exact H2]).
    destruct (Nat.lt_ge_cases i1 n) as [L1|L1].
    + replace (Nat.min i1 (n - 1)) with i1 in H3 by lia. pose proof (Q3 i1 a3 ltac:(lia) H3). destruct (a3 - t <=? t - a2)%Z eqn:E; lia.
    + replace (Nat.min i1 (n - 1)) with (i1 - 1) in H3 by lia. assert (a3 = a2) by congruence. destruct (a3 - t <=? t - a2)%Z eqn:E; lia.
  - pose proof (Q3 _ _ Lj Hj). replace (Nat.min i1 (n - 1)) with i1 in H3 by lia.
    assert ((a3 <= y)%Z) by (apply (S1 i1 j); [lia|exact H3|exact Hj]). pose proof (Q3 i1 a3 ltac:(lia) H3).
    destruct (Nat.eq_dec i1 0) as [E0|E0].
    + rewrite E0 in H2, H3. cbn in H2, H3. assert (a2 = a3) by congruence. destruct (a3 - t <=? t - a2)%Z eqn:E; lia.
    + replace (Nat.min (i1 - 1) (n - 1)) with (i1 - 1) in H2 by lia. assert ((a2 < t)%Z) by (apply (Q2 (i1 - 1)); [lia|exact H2]).
      destruct (a3 - t <=? t - a2)%Z eqn:E; lia.
Qed.

Lemma nearest_nan l p s : sorts p l -> Forall2 (fun a x => nth_error l a = Some x) p s -> l <> [] ->
  exists i x, nearest_one l p s None = Ok (i, None) /\ nth_error l i = Some x /\ forall y, In y l -> (y <= x)%Z.
Proof.
  intros HP F Hne. destruct (sorted_array _ _ _ HP F) as (S1 & S2 & S3).
  set (n := length s). assert (Hn : 0 < n) by (subst n; rewrite S3; destruct l; [contradiction|cbn; lia]).
  unfold nearest_one. fold n.
  assert (G : forall i, i < n -> exists x, nth_error s i = Some x).
  { intros i Hi. destruct (nth_error s i) as [x|] eqn:E; [eauto|]. apply nth_error_None in E. subst n. lia. }
  destruct (G (n - 1) ltac:(lia)) as [a Ha]. replace (Nat.min n (n - 1)) with (n - 1) by lia. replace (Nat.min (n - 1) (n - 1)) with (n - 1) by lia.
  rewrite !(get_some _ _ _ Ha). cbn [bind]. destruct (F2_nth_r _ _ _ F _ _ Ha) as (i & Hi & Ei). rewrite (get_some _ _ _ Hi). cbn [bind]. rewrite (get_some _ _ _ Ei). cbn [bind].
  exists i, a. split; [reflexivity|]. split; [exact Ei|]. intros y Hy. apply S2 in Hy. destruct Hy as [j Hj]. apply (S1 j (n - 1)); [|exact Hj|exact Ha].
  assert (nth_error s j <> None) by congruence. apply nth_error_Some in H. subst n. lia.
Qed.

Lemma mapM_ok {A B} (f : A -> res B) (R : A -> B -> Prop) l : (forall x, In x l -> exists y, f x = Ok y /\ R x y) ->
  exists ys, mapM f l = Ok ys /\ Forall2 R l ys.
Proof.
  induction l as [|x l IH]; intros H; [exists []; split; constructor|].
  destruct (H x (or_introl eq_refl)) as (y & Ey & Ry). destruct IH as (ys & E & F); [intros z Hz; apply H; right; exact Hz|].
  exists (y :: ys). cbn [mapM]. rewrite Ey, E. split; [reflexivity|constructor; assumption].
Qed.

Definition found (l : list Z) (t : option Z) (o : nat * option Z) : Prop :=
  exists x, nth_error l (fst o) = Some x /\
    match t with
    | Some v => closest l v (fst o) /\ snd o = Some (v - x)%Z
    | None => (forall y, In y l -> (y <= x)%Z) /\ snd o = None
    end.

Lemma find_nearest_spec l p ts : sorts p l -> l <> [] -> exists out, find_nearest l p ts = Ok out /\ Forall2 (found l) ts out.
Proof.
  intros HP Hne. destruct (sorts_values _ _ HP) as (s & E & F). unfold find_nearest. rewrite E. cbn [bind].
  apply mapM_ok. intros [t|] _.
  - destruct (nearest_one_spec l p s t HP F Hne) as (i & x & E1 & E2 & E3). exists (i, Some (t - x)%Z). split; [exact E1|]. exists x. cbn [fst snd]. auto.
  - destruct (nearest_nan l p s HP F Hne) as (i & x & E1 & E2 & E3). exists (i, None). split; [exact E1|]. exists x. cbn [fst snd]. auto.
Qed.

Lemma find_nearest_empty p t ts : sorts p [] -> find_nearest [] p (t :: ts) = Err IndexError.
Proof.
  intros [H _]. cbn in H. apply Permutation_sym, Permutation_nil in H. subst p. unfold find_nearest. cbn [mapM bind]. unfold nearest_one. destruct t; reflexivity.
Qed.

(** ** CO *)

Lemma cartesian_spec states c : In c (cartesian states) <-> combination states c.
Proof.
  unfold combination. revert c. induction states as [|s states IH]; intros c; cbn [cartesian].
  - split; [intros [<-|[]]; constructor|]. intros H. inversion H. left. reflexivity.
  - rewrite in_flat_map. split.
    + intros (x & Hx & Hc). apply in_map_iff in Hc. destruct Hc as (r & <- & Hr). constructor; [exact Hx|]. apply IH. exact Hr.
    + intros H. inversion H as [|? x ? r Hx Hr]; subst. exists x. split; [exact Hx|]. apply in_map. apply IH. exact Hr.
Qed.

Lemma cartesian_nonempty states : Forall (fun s => s <> []) states -> cartesian states <> [].
Proof.
  induction states as [|s states IH]; intros H; [discriminate|]. apply Forall_cons_iff in H. destruct H as [H1 H2]. specialize (IH H2).
  cbn [cartesian]. destruct s as [|x s]; [contradiction|]. destruct (cartesian states); [contradiction|]. discriminate.
Qed.

Lemma co_optimal argsort states mains : (forall l, sorts (argsort l) l) -> Forall (fun s => s <> []) states ->
  exists out, co_disaggregate argsort states mains = Ok out /\
    Forall2 (fun t c => combination states c /\ forall c', combination states c' ->
      match t with
      | Some v => (Z.abs (v - sumZ c) <= Z.abs (v - sumZ c'))%Z
      | None => (sumZ c' <= sumZ c)%Z
      end) mains out.
Proof.
  intros HA HS. set (combs := cartesian states). set (sums := map sumZ combs).
  assert (Hne : sums <> []) by (subst sums combs; pose proof (cartesian_nonempty states HS); destruct (cartesian states); [contradiction|discriminate]).
  destruct (find_nearest_spec sums (argsort sums) mains (HA sums) Hne) as (fnd & E & F).
  unfold co_disaggregate. fold combs sums. rewrite E. cbn [bind]. clear E.
  induction F as [|t o mains fnd Ho F IH]; [exists []; split; [reflexivity|constructor]|].
  destruct IH as (out & E & FO). cbn [mapM]. destruct Ho as (x & Hx & Ho). subst sums. rewrite nth_error_map in Hx.
  destruct (nth_error combs (fst o)) as [c|] eqn:Ec; [|discriminate]. injection Hx as <-. rewrite (get_some _ _ _ Ec). cbn [bind]. rewrite E. cbn [bind].
  exists (c :: out). split; [reflexivity|]. constructor; [|exact FO]. split; [apply cartesian_spec; eapply nth_error_In; exact Ec|].
  intros c' Hc'. apply cartesian_spec in Hc'. assert (Hs : In (sumZ c') (map sumZ combs)) by (apply in_map; exact Hc').
  destruct t as [v|]; destruct Ho as [Ho _].
  - destruct Ho as (x & Hx & Ho). rewrite nth_error_map, Ec in Hx. injection Hx as <-. apply Ho. exact Hs.
  - apply Ho. exact Hs.
Qed.

(** ** Mean *)

Lemma py_int_near x : (Qabs (x - inject_Z (py_int x)) < 1)%Q.
Proof.
  unfold py_int. destruct x as [a d]. cbn [Qnum Qden]. apply Qabs_case; intros _.
  - unfold Qlt, Qminus, Qplus, Qopp, inject_Z. cbn. pose proof (Z.quot_rem' a (Zpos d)). 
    assert (Z.abs (Z.rem a (Zpos d)) < Zpos d)%Z by (pose proof (Z.rem_bound_abs a (Zpos d)); lia). nia.
  - unfold Qlt, Qminus, Qplus, Qopp, inject_Z. cbn. pose proof (Z.quot_rem' a (Zpos d)). 
    assert (Z.abs (Z.rem a (Zpos d)) < Zpos d)%Z by (pose proof (Z.rem_bound_abs a (Zpos d)); lia). nia.
Qed.

Lemma nansum_present l : (nansum l == qsum (present_readings l))%Q.
Proof. induction l as [|[v|] l IH]; cbn; [reflexivity| |exact IH]. rewrite IH. reflexivity. Qed.

Lemma nansum_app a b : (nansum (a ++ b) == nansum a + nansum b)%Q.
Proof. induction a as [|[v|] a IH]; cbn; [ring| |exact IH]. rewrite IH. ring. Qed.

Lemma mean_fit_snd calls : forall m, snd (fold_left mean_partial_fit calls m) = snd m + length (concat (map (@concat _) calls)).
Proof.
  induction calls as [|c calls IH]; intros m; cbn [fold_left map concat]; [cbn; lia|]. rewrite IH. unfold mean_partial_fit. cbn [snd]. rewrite app_length. lia.
Qed.

Lemma mean_fit_fst calls : forall m, (Qabs (inject_Z (fst (fold_left mean_partial_fit calls m)) - (inject_Z (fst m) + nansum (concat (map (@concat _) calls))))
   <= inject_Z (Z.of_nat (length calls)))%Q.
Proof.
  induction calls as [|c calls IH]; intros m; cbn [fold_left map concat length].
  - apply Qabs_Qle_condition. change (nansum []) with 0%Q. change (inject_Z (Z.of_nat 0)) with 0%Q. lra.
  - specialize (IH (mean_partial_fit m c)). pose proof (py_int_near (nansum (concat c))) as HN.
    remember (inject_Z (fst (fold_left mean_partial_fit calls (mean_partial_fit m c)))) as X eqn:EX. clear EX.
    unfold mean_partial_fit in IH. cbn [fst] in IH. rewrite inject_Z_plus in IH. rewrite nansum_app.
    remember (inject_Z (py_int (nansum (concat c)))) as P eqn:EP. clear EP. remember (nansum (concat c)) as a eqn:Ea. clear Ea.
    remember (nansum (concat (map (concat (A:=option Q)) calls))) as b eqn:Eb. clear Eb.
    rewrite Nat2Z.inj_succ. unfold Z.succ. rewrite inject_Z_plus. remember (inject_Z (Z.of_nat (length calls))) as L eqn:EL. clear EL.
    apply Qabs_Qle_condition in IH. apply Qabs_Qlt_condition in HN. apply Qabs_Qle_condition. change (inject_Z 1) with 1%Q. lra.
Qed.

Lemma nansum_concat_integral calls : Forall (fun c => exists z, (nansum (concat c) == inject_Z z)%Q) calls ->
  forall m, (inject_Z (fst (fold_left mean_partial_fit calls m)) == inject_Z (fst m) + nansum (concat (map (@concat _) calls)))%Q.
Proof.
  induction calls as [|c calls IH]; intros HF m; cbn [fold_left map concat]; [cbn; ring|].
  apply Forall_cons_iff in HF. destruct HF as [[z Hz] HF]. rewrite (IH HF). unfold mean_partial_fit. cbn [fst]. rewrite inject_Z_plus, nansum_app.
  assert (E : py_int (nansum (concat c)) = z).
  { clear -Hz. unfold py_int. destruct (nansum (concat c)) as [a d]. unfold Qeq in Hz. cbn in *. rewrite Z.mul_1_r in Hz. subst a. apply Z.quot_mul. discriminate. }
  rewrite E, Hz. ring.
Qed.

(** The value Mean predicts. *)
Definition mean_value (m : mean_model) : Q := (inject_Z (fst m) / inject_Z (Z.of_nat (snd m)))%Q.

Lemma mean_predict_spec m rows : snd m <> 0 -> mean_predict m rows = Ok (repeat (mean_value m) rows).
Proof. unfold mean_predict, mean_value. destruct (snd m); [contradiction|reflexivity]. Qed.

Definition all_readings (calls : list (list (list (option Q)))) : list (option Q) := concat (map (@concat _) calls).

Lemma mean_exact calls rows : all_readings calls <> [] ->
  Forall (fun c => exists z, (qsum (present_readings (concat c)) == inject_Z z)%Q) calls ->
  exists v, mean_predict (mean_fit calls) rows = Ok (repeat v rows) /\
    (v * inject_Z (Z.of_nat (length (all_readings calls))) == qsum (present_readings (all_readings calls)))%Q.
Proof.
  intros Hne HF. unfold mean_fit. pose proof (mean_fit_snd calls (0%Z, 0)) as HS. cbn [snd plus] in HS. fold (all_readings calls) in HS.
  assert (HL : length (all_readings calls) <> 0) by (destruct (all_readings calls); [contradiction|discriminate]).
  exists (mean_value (mean_fit calls)). split; [apply mean_predict_spec; unfold mean_fit; lia|].
  unfold mean_value, mean_fit. rewrite HS.
  assert (HF' : Forall (fun c => exists z, (nansum (concat c) == inject_Z z)%Q) calls).
  { eapply Forall_impl; [|exact HF]. intros c [z Hz]. exists z. rewrite nansum_present. exact Hz. }
  rewrite (nansum_concat_integral calls HF' (0%Z, 0)). rewrite <- nansum_present. fold (all_readings calls). cbn [fst].
  change (inject_Z 0) with 0%Q. field. intros E. unfold Qeq in E. cbn in E. lia.
Qed.

Lemma mean_bound calls rows : all_readings calls <> [] ->
  exists v, mean_predict (mean_fit calls) rows = Ok (repeat v rows) /\
    (Qabs (v * inject_Z (Z.of_nat (length (all_readings calls))) - qsum (present_readings (all_readings calls)))
     <= inject_Z (Z.of_nat (length calls)))%Q.
Proof.
  intros Hne. unfold mean_fit. pose proof (mean_fit_snd calls (0%Z, 0%nat)) as HS. cbn [snd plus] in HS. fold (all_readings calls) in HS.
  assert (HL : length (all_readings calls) <> 0) by (destruct (all_readings calls); [contradiction|discriminate]).
  exists (mean_value (mean_fit calls)). split; [apply mean_predict_spec; unfold mean_fit; lia|].
  unfold mean_value, mean_fit. rewrite HS. pose proof (mean_fit_fst calls (0%Z, 0%nat)) as HB. fold (all_readings calls) in HB. cbn [fst] in HB.
  setoid_replace (inject_Z (fst (fold_left mean_partial_fit calls (0%Z, 0%nat))) / inject_Z (Z.of_nat (length (all_readings calls))) * inject_Z (Z.of_nat (length (all_readings calls))))%Q
    with (inject_Z (fst (fold_left mean_partial_fit calls (0%Z, 0%nat))))%Q by (field; intros E; unfold Qeq in E; cbn in E; lia).
  rewrite <- nansum_present. setoid_replace (inject_Z (fst (fold_left mean_partial_fit calls (0%Z, 0%nat))) - nansum (all_readings calls))%Q
    with (inject_Z (fst (fold_left mean_partial_fit calls (0%Z, 0%nat))) - (inject_Z 0 + nansum (all_readings calls)))%Q by (change (inject_Z 0) with 0%Q; ring).
  exact HB.
Qed.

Lemma present_all l : ~ In None l -> length (present_readings l) = length l.
Proof.
  induction l as [|[v|] l IH]; intros H; [reflexivity| |elim H; left; reflexivity].
  change (length (present_readings (Some v :: l))) with (S (length (present_readings l))). rewrite IH; [reflexivity|]. intros K. apply H. right. exact K.
Qed.

Lemma mean_untrained calls rows : all_readings calls = [] -> mean_predict (mean_fit calls) rows = Err ZeroDivisionError.
Proof.
  intros H. unfold mean_fit, mean_predict. pose proof (mean_fit_snd calls (0%Z, 0%nat)) as HS. cbn [snd plus] in HS. fold (all_readings calls) in HS. rewrite H in HS. cbn in HS. rewrite HS. reflexivity.
Qed.

(** ** A correct argsort exists (insertion sort on positions) *)

Fixpoint insert_pos (l : list Z) (i : nat) (p : list nat) : list nat :=
  match p with
  | [] => [i]
  | j :: r => if (nth i l 0 <=? nth j l 0)%Z then i :: j :: r else j :: insert_pos l i r
  end.
Definition argsort_ins (l : list Z) : list nat := fold_right (insert_pos l) [] (seq 0 (length l)).

Lemma insert_pos_perm l i p : Permutation (insert_pos l i p) (i :: p).
Proof.
  induction p as [|j r IH]; cbn [insert_pos]; [reflexivity|]. destruct (_ <=? _)%Z; [reflexivity|]. rewrite IH. apply perm_swap.
Qed.

Lemma insert_pos_sorted l i p : StronglySorted (fun a b => (nth a l 0 <= nth b l 0)%Z) p -> StronglySorted (fun a b => (nth a l 0 <= nth b l 0)%Z) (insert_pos l i p).
Proof.
  induction 1 as [|j r Hs IH Hf]; cbn [insert_pos]; [repeat constructor|]. destruct (_ <=? _)%Z eqn:E.
  - constructor; [constructor; assumption|]. constructor; [lia|]. eapply Forall_impl; [|exact Hf]. cbn. intros. lia.
  - constructor; [exact IH|]. rewrite (Permutation_Forall (insert_pos_perm l i r)) || (apply (Permutation_Forall (Permutation_sym (insert_pos_perm l i r)))).
    constructor; [lia|exact Hf].
Qed.

Lemma argsort_ins_sorts : forall l, sorts (argsort_ins l) l.
Proof.
  intros l. unfold argsort_ins. set (q := seq 0 (length l)).
  assert (HP : Permutation (fold_right (insert_pos l) [] q) q).
  { induction q as [|i q IH]; cbn; [reflexivity|]. rewrite insert_pos_perm. constructor. exact IH. }
  assert (HS : StronglySorted (fun a b => (nth a l 0 <= nth b l 0)%Z) (fold_right (insert_pos l) [] q)).
  { clear HP. induction q as [|i q IH]; cbn; [constructor|]. apply insert_pos_sorted. exact IH. }
  split; [exact HP|]. intros i j a b Hij Hi Hj.
  assert (B : forall k x, nth_error (fold_right (insert_pos l) [] q) k = Some x -> x < length l).
  { intros k x Hx. apply nth_error_In in Hx. apply (Permutation_in _ HP) in Hx. apply in_seq in Hx. lia. }
  pose proof (B _ _ Hi) as Ba. pose proof (B _ _ Hj) as Bb.
  exists (nth a l 0%Z), (nth b l 0%Z). split; [apply nth_error_nth'; exact Ba|]. split; [apply nth_error_nth'; exact Bb|].
  clear HP B. revert i j Hij Hi Hj. induction HS as [|x r Hs IH Hf]; intros i j Hij Hi Hj; [destruct i; discriminate|].
  destruct j as [|j]; [lia|]. destruct i as [|i]; cbn in Hi, Hj.
  - injection Hi as <-. rewrite Forall_forall in Hf. apply Hf. eapply nth_error_In. exact Hj.
  - apply (IH i j); [lia|exact Hi|exact Hj].
Qed.

Lemma argsort_exists : exists argsort, forall l, sorts (argsort l) l.
Proof. exists argsort_ins. exact argsort_ins_sorts. Qed.
