(** Lemmas about dropout rates. *)
From Verif Require Import Base TimeFrameModel TimeFrameSpec TimeFrameProofs SortLib ResultsModel ResultsSpec ResultsProofs.
From Coq Require Import QArith Qminmax Qfield Sorted Permutation Lqa.
Open Scope Z_scope.

Lemma round_nearest n d : 0 < d -> nearest (round_half_even n d) n d.
Proof.
  intros Hd. unfold nearest, round_half_even.
  assert (E := Z.div_mod n d ltac:(lia)). assert (B := Z.mod_pos_bound n d Hd).
  set (q := n / d) in *. set (m := n mod d) in *. clearbody q m.
  destruct (2 * m <? d) eqn:E1; [|destruct (d <? 2 * m) eqn:E2; [|destruct (Z.even q)]]; nia.
Qed.

Lemma round_nonneg n d : 0 < d -> 0 <= n -> 0 <= round_half_even n d.
Proof.
  intros Hd Hn. assert (H := round_nearest n d Hd). unfold nearest in H.
  destruct (Z_lt_le_dec (round_half_even n d) 0); auto. nia.
Qed.

Lemma round_exact k d : 0 < d -> round_half_even (k * d) d = k.
Proof.
  intros Hd. unfold round_half_even. rewrite Z.div_mul, Z.mod_mul by lia. simpl.
  destruct (0 <? d) eqn:E; auto. lia.
Qed.

Lemma last_opt_nth {A} (l : list A) : l <> [] -> last_opt l = nth_error l (length l - 1).
Proof.
  induction l as [|x [|y l] IH]; intros H; [congruence|reflexivity|].
  change (last_opt (x :: y :: l)) with (last_opt (y :: l)). rewrite IH by discriminate.
  simpl length. replace (S (S (length l)) - 1)%nat with (S (length l)) by lia.
  simpl. f_equal. lia.
Qed.

Lemma sorted_first_last x l : StronglySorted Z.lt (x :: l) -> l <> [] ->
  exists y, last_opt (x :: l) = Some y /\ x < y.
Proof.
  intros H Hn. inversion H as [|? ? _ HF]; subst. rewrite Forall_forall in HF.
  destruct l as [|z l]; [congruence|].
  change (last_opt (x :: z :: l)) with (last_opt (z :: l)).
  rewrite last_opt_nth by discriminate.
  destruct (nth_error (z :: l) (length (z :: l) - 1)) as [y|] eqn:E.
  - exists y. split; auto. apply HF. eapply nth_error_In; eauto.
  - apply nth_error_None in E. simpl in E. lia.
Qed.

Lemma dropout_in_range index period : 0 < period -> StronglySorted Z.lt index ->
  (length index < 5)%nat /\ get_dropout_rate index period = Ok None \/
  exists first last m q, nth_error index 0 = Some first /\ last_opt index = Some last /\
    nearest m (last - first) period /\ get_dropout_rate index period = Ok (Some q) /\
    (0 <= q <= 1)%Q /\
    (q == Qmax 0 (1 - inject_Z (Z.of_nat (length index)) / inject_Z (m + 1)))%Q.
Proof.
  intros Hp Hs. unfold get_dropout_rate.
  destruct (Z.of_nat (length index) <? 5) eqn:E5.
  { left. split; [lia|auto]. }
  right. destruct index as [|first rest]; [discriminate|].
  destruct rest as [|second rest]; [simpl in E5; lia|].
  destruct (sorted_first_last first (second :: rest) Hs ltac:(discriminate)) as (last & EL & Hlt).
  rewrite EL. exists first, last. exists (round_half_even (last - first) period).
  assert (Ef : (last >? first) = true) by lia. rewrite Ef. cbn [negb].
  assert (Ep : (period =? 0) = false) by lia. rewrite Ep.
  assert (Hr := round_nonneg (last - first) period Hp ltac:(lia)).
  set (m := round_half_even (last - first) period) in *.
  assert (Em : (m + 1 =? 0) = false) by lia. rewrite Em.
  set (L := Z.of_nat (length (first :: second :: rest))) in *.
  assert (Hpos : (0 < inject_Z (m + 1))%Q) by (unfold Qlt; simpl; lia).
  assert (HL : (0 <= inject_Z L / inject_Z (m + 1))%Q).
  { apply Qle_shift_div_l; auto. rewrite Qmult_0_l. unfold Qle; simpl; lia. }
  set (x := (1 - inject_Z L / inject_Z (m + 1))%Q).
  assert (Hx1 : (x <= 1)%Q) by (unfold x; lra).
  destruct (Qle_bool 0 x) eqn:E0.
  - assert (Hx1b : Qle_bool x 1 = true) by (apply Qle_bool_iff; auto).
    rewrite Hx1b, E0. cbn [andb]. exists x. split; [reflexivity|]. split; [auto|].
    split; [apply round_nearest; auto|]. split; [auto|].
    apply Qle_bool_iff in E0. split; [split; auto|]. rewrite Q.max_r; auto. reflexivity.
  - cbn [Qle_bool]. exists 0%Q. split; [reflexivity|]. split; [auto|].
    split; [apply round_nearest; auto|]. split; [reflexivity|].
    split; [split; unfold Qle; simpl; lia|].
    assert (Hx : (x <= 0)%Q).
    { apply Qnot_lt_le. intros C. apply Qlt_le_weak in C. apply Qle_bool_iff in C. congruence. }
    rewrite Q.max_l; auto. reflexivity.
Qed.

Lemma perfect_nth index period : perfectly_sampled index period -> forall k first x,
  nth_error index 0 = Some first -> nth_error index k = Some x -> x = first + Z.of_nat k * period.
Proof.
  intros H k first. induction k as [|k IH]; intros x H0 Hk.
  - rewrite H0 in Hk. inversion Hk. lia.
  - destruct (nth_error index k) as [y|] eqn:Ey.
    + specialize (IH y H0 eq_refl). specialize (H k y x Ey Hk). subst. lia.
    + apply nth_error_None in Ey. assert (S k < length index)%nat by (apply nth_error_Some; congruence). lia.
Qed.

Lemma dropout_perfect index period : 0 < period -> perfectly_sampled index period ->
  (5 <= length index)%nat -> exists q, get_dropout_rate index period = Ok (Some q) /\ (q == 0)%Q.
Proof.
  intros Hp H HL. unfold get_dropout_rate.
  assert (E5 : (Z.of_nat (length index) <? 5) = false) by lia. rewrite E5.
  destruct index as [|first rest] eqn:Ei; [simpl in HL; lia|]. rewrite <- Ei in *.
  assert (Nn : index <> []) by (subst; discriminate).
  rewrite (last_opt_nth index Nn).
  destruct (nth_error index (length index - 1)) as [last|] eqn:EL.
  2:{ apply nth_error_None in EL. lia. }
  assert (E0 : nth_error index 0 = Some first) by (subst; reflexivity).
  assert (V := perfect_nth index period H _ first last E0 EL).
  assert (G : (last >? first) = true) by nia.
  rewrite G. cbn [negb].
  assert (Ep : (period =? 0) = false) by lia. rewrite Ep.
  replace (last - first) with (Z.of_nat (length index - 1) * period) by lia.
  rewrite round_exact by auto.
  replace (Z.of_nat (length index - 1) + 1) with (Z.of_nat (length index)) by lia.
  assert (Ez : (Z.of_nat (length index) =? 0) = false) by lia. rewrite Ez.
  assert (Hq : (1 - inject_Z (Z.of_nat (length index)) / inject_Z (Z.of_nat (length index)) == 0)%Q).
  { field. intros C. unfold Qeq in C. simpl in C. lia. }
  set (x := (1 - inject_Z (Z.of_nat (length index)) / inject_Z (Z.of_nat (length index)))%Q) in *.
  assert (B0 : Qle_bool 0 x = true) by (apply Qle_bool_iff; rewrite Hq; apply Qle_refl).
  assert (B1 : Qle_bool x 1 = true) by (apply Qle_bool_iff; rewrite Hq; unfold Qle; simpl; lia).
  rewrite B0, B0, B1. cbn [andb]. exists x. auto.
Qed.

(** A series whose last stamp is not after its first trips the assertion. *)
Lemma dropout_assertion first rest last period : last_opt (first :: rest) = Some last ->
  (5 <= length (first :: rest))%nat -> last <= first ->
  get_dropout_rate (first :: rest) period = Err AssertionError.
Proof.
  intros EL HL H. unfold get_dropout_rate.
  assert (E5 : (Z.of_nat (length (first :: rest)) <? 5) = false) by lia. rewrite E5, EL.
  assert (G : (last >? first) = false) by lia. rewrite G. reflexivity.
Qed.

(** ** Combined rate *)

Definition total_rate (data : table dropout) : Q :=
  fold_right Qplus 0%Q (map (fun r => match d_rate (r_val r) with Some x => (x * inject_Z (d_n (r_val r)))%Q | None => 0%Q end) data).

Lemma inject_Z_nonzero z : z <> 0 -> ~ (inject_Z z == 0)%Q.
Proof. intros H C. unfold Qeq in C. simpl in C. lia. Qed.

Lemma dropout_sum tot (l : table dropout) : tot <> 0 ->
  (fold_right Qplus 0 (map (fun r => dropout_term tot (r_val r)) l) == total_rate l / inject_Z tot)%Q.
Proof.
  intros Ht. assert (Hq := inject_Z_nonzero tot Ht). unfold total_rate.
  induction l as [|r l IH]; simpl.
  - field. auto.
  - rewrite IH. unfold dropout_term. assert (E : (tot =? 0) = false) by lia.
    destruct (d_rate (r_val r)); rewrite ?E; field; auto.
Qed.

Lemma dropout_combined_total data : tot_samples data <> 0 ->
  (dropout_combined data == total_rate data / inject_Z (tot_samples data))%Q.
Proof. intros H. unfold dropout_combined. apply dropout_sum; auto. Qed.

Lemma dropout_combined_range data : 
  Forall (fun r => 0 <= d_n (r_val r)) data ->
  Forall (fun r => forall x, d_rate (r_val r) = Some x -> (0 <= x <= 1)%Q) data ->
  (0 <= dropout_combined data <= 1)%Q.
Proof.
  intros HN HR. destruct (Z.eq_dec (tot_samples data) 0) as [E|E].
  - unfold dropout_combined. rewrite E.
    assert (X : forall l : table dropout, (fold_right Qplus 0 (map (fun r => dropout_term 0 (r_val r)) l) == 0)%Q).
    { induction l as [|r l IH]; simpl; [reflexivity|]. rewrite IH. unfold dropout_term. simpl.
      destruct (d_rate (r_val r)); lra. }
    rewrite X. lra.
  - rewrite (dropout_combined_total data E).
    assert (B : (0 <= total_rate data <= inject_Z (tot_samples data))%Q /\ 0 <= tot_samples data).
    { clear E. unfold total_rate, tot_samples. induction data as [|r l IH]; simpl; [split; [split; unfold Qle; simpl; lia|lia]|].
      inversion HN; subst. inversion HR; subst. destruct IH as [IH1 IH2]; auto.
      rewrite inject_Z_plus. assert (Hn : (0 <= inject_Z (d_n (r_val r)))%Q) by (unfold Qle; simpl; lia).
      split; [|lia].
      destruct (d_rate (r_val r)) as [x|] eqn:Ex; [|lra].
      assert (0 <= x <= 1)%Q by auto. nra. }
    destruct B as [[B1 B2] B3].
    assert (P : (0 < inject_Z (tot_samples data))%Q) by (unfold Qlt; simpl; lia).
    split.
    + apply Qle_shift_div_l; auto; lra.
    + apply Qle_shift_div_r; auto; lra.
Qed.

(** ** Unified rate *)

Definition rates_known (data : table dropout) : Prop :=
  Forall (fun r => exists q, d_rate (r_val r) = Some q) data.

Lemma dropout_unify_same P data other :
  proper_periods P -> same_periods P data -> same_periods P other ->
  exists d, dropout_unify data other = Ok d /\ same_periods P d /\
    forall k x y, rate_at data k = Some x -> rate_at other k = Some y ->
      exists z, rate_at d k = Some z /\ (z == (x + y) / 2)%Q.
Proof.
  intros HP H1 H2. unfold dropout_unify.
  assert (HU2 := same_periods_unique P other HP H2).
  rewrite (proj2 (unify_check_ok data other HU2) (same_periods_ok P data other HP H1 H2)). cbn [bind].
  destruct (combine_rows_same drop_mean P data other HP H1 H2) as [S K].
  eexists. split; [reflexivity|]. split; auto.
  intros k x y Hx Hy. unfold rate_at in *.
  destruct (nth_error data k) as [u|] eqn:Eu; [|discriminate].
  destruct (nth_error other k) as [w|] eqn:Ew; [|discriminate].
  rewrite (K k u w Eu Ew). simpl. rewrite Hx, Hy. eexists. split; [reflexivity|]. reflexivity.
Qed.

Lemma doubling_scale l : forall w, (doubling (2 * w) l == 2 * doubling w l)%Q.
Proof.
  induction l as [|x l IH]; intros w; cbn [doubling]; [reflexivity|].
  rewrite (IH (2 * w)). rewrite inject_Z_mult. simpl (inject_Z 2). ring.
Qed.

Lemma dropout_unify_all_formula P k : proper_periods P -> forall l first r0 rs,
  same_periods P first -> Forall (same_periods P) l ->
  rate_at first k = Some r0 -> Forall2 (fun t r => rate_at t k = Some r) l rs ->
  exists d z, dropout_unify_all l first = Ok d /\ same_periods P d /\ rate_at d k = Some z /\
    (inject_Z (2 ^ Z.of_nat (length l)) * z == r0 + doubling 1 rs)%Q.
Proof.
  intros HP. unfold dropout_unify_all. induction l as [|t l IH]; intros first r0 rs H1 HL Hr HF.
  - inversion HF; subst. exists first, r0. cbn [foldM]. split; auto. split; auto. split; auto.
    cbn [doubling length]. simpl (inject_Z (2 ^ Z.of_nat 0)). ring.
  - inversion HL as [|? ? Ht HL']; subst. inversion HF as [|? r1 ? rs' Hr1 HF']; subst. cbn [foldM].
    destruct (dropout_unify_same P first t HP H1 Ht) as (d & E & S & K).
    destruct (K k r0 r1 Hr Hr1) as (z & Hz & Ez). rewrite E. cbn [bind].
    destruct (IH d z rs' S HL' Hz HF') as (d' & z' & E' & S' & Hz' & Ez').
    exists d', z'. split; auto. split; auto. split; auto.
    cbn [length doubling]. rewrite Nat2Z.inj_succ, Z.pow_succ_r by lia.
    rewrite inject_Z_mult. rewrite <- Qmult_assoc, Ez', Ez.
    rewrite doubling_scale. change (inject_Z 2) with 2%Q. change (inject_Z 1) with 1%Q. field.
Qed.

Lemma doubling_bounds lo hi l : Forall (fun x => lo <= x <= hi)%Q l -> forall w, 0 <= w ->
  (inject_Z (w * (2 ^ Z.of_nat (length l) - 1)) * lo <= doubling w l <= inject_Z (w * (2 ^ Z.of_nat (length l) - 1)) * hi)%Q.
Proof.
  induction 1 as [|x l Hx Hl IH]; intros w Hw.
  - cbn [doubling length]. replace (w * (2 ^ Z.of_nat 0 - 1)) with 0 by (simpl; lia). change (inject_Z 0) with 0%Q. lra.
  - cbn [doubling length]. specialize (IH (2 * w) ltac:(lia)).
    replace (w * (2 ^ Z.of_nat (S (length l)) - 1)) with (w + 2 * w * (2 ^ Z.of_nat (length l) - 1))
      by (rewrite Nat2Z.inj_succ, Z.pow_succ_r by lia; ring).
    rewrite inject_Z_plus. assert (Q0 : (0 <= inject_Z w)%Q) by (unfold Qle; simpl; lia).
    set (T := inject_Z (2 * w * (2 ^ Z.of_nat (length l) - 1))) in *. nra.
Qed.

Lemma dropout_unify_all_between P k lo hi l first r0 rs : proper_periods P ->
  same_periods P first -> Forall (same_periods P) l ->
  rate_at first k = Some r0 -> Forall2 (fun t r => rate_at t k = Some r) l rs ->
  Forall (fun x => lo <= x <= hi)%Q (r0 :: rs) ->
  exists d z, dropout_unify_all l first = Ok d /\ rate_at d k = Some z /\ (lo <= z <= hi)%Q.
Proof.
  intros HP H1 HL Hr HF HB. inversion HB as [|? ? B0 BS]; subst.
  destruct (dropout_unify_all_formula P k HP l first r0 rs H1 HL Hr HF) as (d & z & E & _ & Hz & Ez).
  exists d, z. split; auto. split; auto.
  assert (EL : length l = length rs) by (clear - HF; induction HF; simpl; auto). rewrite EL in Ez.
  assert (DB := doubling_bounds lo hi rs BS 1 ltac:(lia)). rewrite Z.mul_1_l in DB.
  assert (Hp : 0 < 2 ^ Z.of_nat (length rs)) by (apply Z.pow_pos_nonneg; lia).
  set (N := 2 ^ Z.of_nat (length rs)) in *. clearbody N.
  assert (EN : (inject_Z (N - 1) == inject_Z N - 1)%Q) by (unfold Z.sub; rewrite inject_Z_plus; reflexivity).
  rewrite EN in DB.
  assert (PN : (0 < inject_Z N)%Q) by (unfold Qlt; simpl; lia).
  split.
  - apply Qnot_lt_le. intros C. assert (inject_Z N * z < inject_Z N * lo)%Q by (apply Qmult_lt_l; auto). nra.
  - apply Qnot_lt_le. intros C. assert (inject_Z N * hi < inject_Z N * z)%Q by (apply Qmult_lt_l; auto). nra.
Qed.

Lemma dropout_unify_two P k a b x y : proper_periods P -> same_periods P a -> same_periods P b ->
  rate_at a k = Some x -> rate_at b k = Some y ->
  exists d z, dropout_unify_all [b] a = Ok d /\ rate_at d k = Some z /\ (z == mean [x; y])%Q.
Proof.
  intros HP Ha Hb Hx Hy. unfold dropout_unify_all. cbn [foldM].
  destruct (dropout_unify_same P a b HP Ha Hb) as (d & E & S & K).
  destruct (K k x y Hx Hy) as (z & Hz & Ez). rewrite E. exists d, z. split; auto. split; auto.
  rewrite Ez. unfold mean. simpl. field.
Qed.

Definition drow (q : Q) : table dropout := [mkRow (Some 0) (Some 10) (mkDrop (Some q) 5)].

Lemma dropout_unify_three : exists a b c d z,
  proper_periods [(Some 0, Some 10)] /\ Forall (same_periods [(Some 0, Some 10)]) [a; b; c] /\
  rate_at a 0 = Some 0%Q /\ rate_at b 0 = Some 0%Q /\ rate_at c 0 = Some 1%Q /\
  dropout_unify_all [b; c] a = Ok d /\ rate_at d 0 = Some z /\ ~ (z == mean [0; 0; 1])%Q /\
  (exists d' z', dropout_unify_all [b; a] c = Ok d' /\ rate_at d' 0 = Some z' /\ ~ (z == z')%Q).
Proof.
  exists (drow 0), (drow 0), (drow 1). do 2 eexists. split.
  { split; [repeat constructor; simpl; tauto|repeat constructor; discriminate]. }
  split; [repeat constructor|]. split; [reflexivity|]. split; [reflexivity|]. split; [reflexivity|].
  split; [reflexivity|]. split; [reflexivity|]. split; [intros C; vm_compute in C; discriminate|].
  do 2 eexists. split; [reflexivity|]. split; [reflexivity|]. intros C; vm_compute in C; discriminate.
Qed.

(** Chunks too short to have a rate still weigh in, as rate 0. *)
Lemma dropout_combined_nan : exists data : table dropout,
  map (fun r => d_rate (r_val r)) data = [Some 1%Q; None] /\ (dropout_combined data == 1 # 2)%Q.
Proof.
  exists [mkRow (Some 0) (Some 10) (mkDrop (Some 1%Q) 5); mkRow (Some 10) (Some 20) (mkDrop None 5)].
  split; [reflexivity|]. vm_compute. reflexivity.
Qed.

Lemma dropout_combined_weighted data ps :
  map (fun r => (d_rate (r_val r), d_n (r_val r))) data = map (fun p => (Some (fst p), snd p)) ps ->
  sumZ (map snd ps) <> 0 -> (dropout_combined data == weighted_mean ps)%Q.
Proof.
  intros H Hn.
  assert (E1 : tot_samples data = sumZ (map snd ps)).
  { unfold tot_samples. f_equal. apply (f_equal (map snd)) in H. rewrite !map_map in H. exact H. }
  rewrite dropout_combined_total by congruence. rewrite E1. unfold weighted_mean, total_rate.
  assert (E2 : map (fun r => match d_rate (r_val r) with Some x => (x * inject_Z (d_n (r_val r)))%Q | None => 0%Q end) data
               = map (fun p => (fst p * inject_Z (snd p))%Q) ps).
  { clear - H. revert ps H. induction data as [|r l IH]; intros [|p ps] H; try discriminate; auto.
    simpl in H. inversion H as [[Hr Hd Hl]]. simpl. rewrite Hr, Hd. f_equal. auto. }
  rewrite E2. reflexivity.
Qed.

(** ** Tables with a row *)
Lemma dropout_simple_weighted data ps :
  map (fun r => (d_rate (r_val r), d_n (r_val r))) data = map (fun p => (Some (fst p), snd p)) ps ->
  sumZ (map snd ps) <> 0 -> exists q, dropout_simple data = Ok q /\ (q == weighted_mean ps)%Q.
Proof.
  intros H1 H2. exists (dropout_combined data). split; [|exact (dropout_combined_weighted data ps H1 H2)].
  destruct data; [|reflexivity]. destruct ps; [exfalso; apply H2; reflexivity|discriminate].
Qed.
Lemma dropout_simple_range data : data <> [] ->
  Forall (fun r => 0 <= d_n (r_val r)) data ->
  Forall (fun r => forall x, d_rate (r_val r) = Some x -> (0 <= x <= 1)%Q) data ->
  exists q, dropout_simple data = Ok q /\ (0 <= q <= 1)%Q.
Proof.
  intros Hne H1 H2. exists (dropout_combined data). split; [destruct data; [contradiction|reflexivity]|]. exact (dropout_combined_range data H1 H2).
Qed.
Lemma dropout_simple_nan : exists data : table dropout,
  map (fun r => d_rate (r_val r)) data = [Some 1%Q; None] /\ exists q, dropout_simple data = Ok q /\ (q == 1 # 2)%Q.
Proof.
  destruct dropout_combined_nan as (data & E & H). exists data. split; [exact E|]. exists (dropout_combined data).
  split; [destruct data; [discriminate|reflexivity]|exact H].
Qed.
