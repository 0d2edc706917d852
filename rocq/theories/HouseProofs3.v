From Coq Require Import QArith Reals Qreals Lra Lia Psatz.
From Verif Require Import Base CorrModel CorrSpec CorrProofs HouseProofs.
Open Scope R_scope.

Lemma rsum_ext {T} (l : list T) (f g : T -> R) : (forall x, In x l -> f x = g x) -> rsum (map f l) = rsum (map g l).
Proof. intros H. f_equal. apply map_ext_in, H. Qed.
Lemma rsum_centre {T} (l : list T) (f : T -> R) a : rsum (map (fun p => f p - a) l) = rsum (map f l) - INR (length l) * a.
Proof. unfold rsum. induction l as [|p l IH]; [cbn; lra|]. cbn [map fold_right length]. rewrite IH, S_INR. lra. Qed.
Lemma rsum_mean l : l <> [] -> INR (length l) * mean l = rsum l.
Proof. intros H. unfold mean. field. apply not_0_INR. destruct l; [congruence|discriminate]. Qed.
(** Another value in place of the mean of the first component changes nothing. *)
Lemma code_any ps a : ps <> [] -> rsum (map (fun p => (fst p - a) * (snd p - mean (map snd ps))) ps) = codeviation ps.
Proof.
  intros NE. unfold codeviation. set (b := mean (map snd ps)). set (m := mean (map fst ps)).
  assert (Z0 : rsum (map (fun p => snd p - b) ps) = 0). { rewrite (rsum_centre ps snd b). assert (X := rsum_mean (map snd ps)). rewrite map_length in X. fold b in X. rewrite X; [lra|]. destruct ps; [congruence|discriminate]. }
  assert (L : forall l : list (R * R), rsum (map (fun p => (fst p - a) * (snd p - b)) l) = rsum (map (fun p => (fst p - m) * (snd p - b)) l) + (m - a) * rsum (map (fun p => snd p - b) l)).
  { unfold rsum. induction l as [|p l IH]; cbn [map fold_right]; [lra|]. rewrite IH. lra. }
  rewrite L, Z0. lra.
Qed.
Lemma dev_any l a : l <> [] -> rsum (map (fun x => (x - a) * (x - a)) l) = deviation l + INR (length l) * ((mean l - a) * (mean l - a)).
Proof.
  intros NE. unfold deviation. set (m := mean l). assert (Z0 : rsum (map (fun x => x - m) l) = 0) by (rewrite (rsum_centre l (fun x => x) m), map_id; unfold m; rewrite (rsum_mean l NE); lra).
  assert (L : forall k : list R, rsum (map (fun x => (x - a) * (x - a)) k) = rsum (map (fun x => (x - m) * (x - m)) k) + 2 * (m - a) * rsum (map (fun x => x - m) k) + INR (length k) * ((m - a) * (m - a))).
  { unfold rsum. induction k as [|x k IH]; [cbn; lra|]. cbn [map fold_right length]. rewrite IH, S_INR. lra. }
  rewrite L, Z0. lra.
Qed.
Lemma dev_grows l x : l <> [] -> deviation l <= deviation (l ++ [x]).
Proof.
  intros NE. unfold deviation at 2. rewrite map_app, rsum_app, (dev_any l _ NE). cbn [map rsum fold_right]. set (a := mean (l ++ [x])).
  assert (A := Rle_0_sqr (mean l - a)). assert (B := Rle_0_sqr (x - a)). unfold Rsqr in *. assert (C := pos_INR (length l)). nra.
Qed.

(** A series with one sample more than the other, at the same times. *)
Section Longer.
  Variables (at_ : nat -> Z) (X Y : nat -> R) (n : nat).
  Hypothesis INJ : forall i j, at_ i = at_ j -> i = j.
  Hypothesis N : (2 <= n)%nat.
  Definition longer : chunk := map (fun i => (at_ i, Some (X i))) (seq 0 (S n)).
  Definition shorter : chunk := map (fun i => (at_ i, Some (Y i))) (seq 0 n).
  Definition common : list (R * R) := map (fun i => (X i, Y i)) (seq 0 n).

  Lemma join_longer a b : opt_sum (product (centred a longer) (centred b shorter)) = rsum (map (fun p => (fst p - a) * (snd p - b)) common).
  Proof.
    unfold product. destruct (list_eq_dec Z.eq_dec _ _) as [E|_].
    { exfalso. apply (f_equal (@length Z)) in E. unfold centred, longer, shorter in E. rewrite !map_length, !seq_length in E. lia. }
    unfold centred, longer, shorter, common. rewrite !map_map. cbn [fst snd opt_minus]. rewrite seq_S, map_app, flat_map_app, opt_sum_app. cbn [Nat.add map flat_map fst snd].
    assert (F : forall i k m, filter (fun q : Z * option R => Z.eqb (at_ i) (fst q)) (map (fun j => (at_ j, Some (Y j - b))) (seq k m)) = map (fun j => (at_ j, Some (Y j - b))) (filter (fun j => Nat.eqb j i) (seq k m))).
    { intros i k m. rewrite filter_map_comm. f_equal. apply filter_ext. intros j. cbn [fst]. destruct (Nat.eqb_spec j i) as [->|NE]; [apply Z.eqb_refl|]. apply Z.eqb_neq. intros E. apply NE. symmetry. apply INJ, E. }
    assert (LAST : filter (fun j => Nat.eqb j n) (seq 0 n) = []). { assert (Y0 : forall l, (forall j, In j l -> (j < n)%nat) -> filter (fun j => Nat.eqb j n) l = []) by (induction l as [|j l IH]; intros A0; [reflexivity|]; cbn [filter]; destruct (Nat.eqb_spec j n) as [E|_]; [exfalso; specialize (A0 j (or_introl eq_refl)); lia|apply IH; intros i Hi; apply A0; right; exact Hi]). apply Y0. intros j Hj. apply in_seq in Hj. lia. }
    rewrite (F n 0%nat n), LAST. cbn [map List.app opt_sum fold_right]. rewrite Rplus_0_r.
    rewrite <- opt_sum_some, map_map. f_equal.
    assert (G : forall l, (forall i, In i l -> (i < n)%nat) -> flat_map (fun p : Z * option R => map (fun q => opt_mult (snd p) (snd q)) (filter (fun q => Z.eqb (fst p) (fst q)) (map (fun j => (at_ j, Some (Y j - b))) (seq 0 n)))) (map (fun i => (at_ i, Some (X i - a))) l) = map (fun i => Some ((X i - a) * (Y i - b))) l).
    { induction l as [|i l IH]; intros A; [reflexivity|]. cbn [map flat_map fst snd]. rewrite (F i 0%nat n), (filter_seq_one i n 0%nat) by (specialize (A i (or_introl eq_refl)); lia). cbn [map List.app snd opt_mult]. f_equal. apply IH. intros j Hj. apply A. right. exact Hj. }
    rewrite G by (intros i Hi; apply in_seq in Hi; lia). apply map_ext. reflexivity.
  Qed.

  Lemma common_ne : common <> [].
  Proof. intros H. apply (f_equal (@length (R * R))) in H. unfold common in H. rewrite map_length, seq_length in H. cbn in H. lia. Qed.
  Lemma correlation_longer :
    correlation [longer] [shorter] = fdiv (codeviation common) (INR n * sqrt (deviation (map X (seq 0 (S n))) / INR n) * sqrt (deviation (map snd common) / (INR n - 1))).
  Proof.
    unfold correlation. rewrite !count_acc. cbn [concat]. rewrite !app_nil_r, !Rplus_0_l. assert (LX : length longer = S n) by (unfold longer; rewrite map_length, seq_length; reflexivity). assert (LY : length shorter = n) by (unfold shorter; rewrite map_length, seq_length; reflexivity).
    rewrite LX, LY, !Nat.add_0_l, (leb_1 (S n)), (leb_1 n) by lia. unfold stdev. rewrite !square_acc. cbn [concat numerator]. rewrite !app_nil_r, !Rplus_0_l, join_longer.
    assert (SX : map snd longer = map Some (map X (seq 0 (S n)))) by (unfold longer; rewrite !map_map; reflexivity).
    assert (SY : map snd shorter = map Some (map snd common)) by (unfold shorter, common; rewrite !map_map; reflexivity).
    rewrite SX, SY, !opt_sum_some.
    assert (MY : rsum (map snd common) / INR n = mean (map snd common)) by (unfold mean, common; rewrite !map_length, seq_length; reflexivity).
    assert (MX : rsum (map X (seq 0 (S n))) / INR (S n) = mean (map X (seq 0 (S n)))) by (unfold mean; rewrite map_length, seq_length; reflexivity).
    rewrite MY, MX. rewrite (code_any common _ common_ne).
    assert (QX : forall m, opt_sum (map (fun p => opt_mult (opt_minus (snd p) m) (opt_minus (snd p) m)) longer) = rsum (map (fun x => (x - m) * (x - m)) (map X (seq 0 (S n))))) by (intros m; rewrite <- opt_sum_some; unfold longer; rewrite !map_map; reflexivity).
    assert (QY : forall m, opt_sum (map (fun p => opt_mult (opt_minus (snd p) m) (opt_minus (snd p) m)) shorter) = rsum (map (fun x => (x - m) * (x - m)) (map snd common))) by (intros m; rewrite <- opt_sum_some; unfold shorter, common; rewrite !map_map; reflexivity).
    rewrite QX, QY. fold (deviation (map X (seq 0 (S n)))). fold (deviation (map snd common)). replace (INR (S n) - 1) with (INR n) by (rewrite S_INR; lra). reflexivity.
  Qed.
  Lemma first_part : deviation (map fst common) <= deviation (map X (seq 0 (S n))).
  Proof. rewrite seq_S, map_app. cbn [Nat.add map]. unfold common. rewrite map_map. cbn [fst]. apply dev_grows. intros H. apply (f_equal (@length R)) in H. rewrite map_length, seq_length in H. cbn in H. lia. Qed.

  (** Pearson's coefficient of the common samples, made smaller by a factor. *)
  Definition factor : R := sqrt ((INR n - 1) * deviation (map fst common) / (INR n * deviation (map X (seq 0 (S n))))).
  Lemma longer_pearson r : pearson common r -> correlation [longer] [shorter] = CVal (r * factor).
  Proof.
    intros [D ->]. rewrite correlation_longer. assert (FP := first_part). assert (N1 := INR_ge2 n N). set (k := INR n) in *. unfold factor. fold k.
    set (dx := deviation (map fst common)) in *. set (dy := deviation (map snd common)) in *. set (dz := deviation (map X (seq 0 (S n)))) in *.
    assert (NX : 0 <= dx) by apply deviation_nonneg. assert (NY : 0 <= dy) by apply deviation_nonneg.
    assert (PX : 0 < dx) by (destruct NX as [|E]; [assumption|rewrite <- E in D; lra]). assert (PY : 0 < dy) by (destruct NY as [|E]; [assumption|rewrite <- E in D; lra]). assert (PZ : 0 < dz) by lra.
    assert (S1 : 0 < sqrt (k - 1)) by (apply sqrt_lt_R0; lra). assert (S2 : 0 < sqrt k) by (apply sqrt_lt_R0; lra). assert (S3 : 0 < sqrt dx) by (apply sqrt_lt_R0; exact PX). assert (S4 : 0 < sqrt dy) by (apply sqrt_lt_R0; exact PY). assert (S5 : 0 < sqrt dz) by (apply sqrt_lt_R0; exact PZ).
    assert (KK : sqrt k * sqrt k = k) by (apply sqrt_sqrt; lra).
    rewrite (sqrt_div_alt dz k) by lra. rewrite (sqrt_div_alt dy (k - 1)) by lra.
    assert (KZ : 0 < k * dz) by (apply Rmult_lt_0_compat; lra). rewrite (sqrt_div_alt _ (k * dz)) by exact KZ. rewrite (sqrt_mult (k - 1) dx), (sqrt_mult k dz), (sqrt_mult dx dy) by lra.
    unfold fdiv. assert (DEN : k * (sqrt dz / sqrt k) * (sqrt dy / sqrt (k - 1)) = sqrt k * sqrt dz * sqrt dy / sqrt (k - 1)) by (rewrite <- KK at 1; field; lra). rewrite DEN.
    destruct (Req_EM_T (sqrt k * sqrt dz * sqrt dy / sqrt (k - 1)) 0) as [E|_].
    - exfalso. assert (PD : 0 < sqrt k * sqrt dz * sqrt dy / sqrt (k - 1)) by (apply Rdiv_lt_0_compat; [repeat apply Rmult_lt_0_compat; assumption|exact S1]). lra.
    - f_equal. field. lra.
  Qed.
  Lemma factor_bound : 0 < deviation (map fst common) -> 0 < factor /\ factor < 1.
  Proof.
    intros D. assert (FP := first_part). assert (N1 := INR_ge2 n N). unfold factor. set (k := INR n) in *. set (dx := deviation (map fst common)) in *. set (dz := deviation (map X (seq 0 (S n)))) in *.
    assert (KZ : 0 < k * dz) by (apply Rmult_lt_0_compat; lra). assert (KX : 0 < (k - 1) * dx) by (apply Rmult_lt_0_compat; lra). split; [apply sqrt_lt_R0, Rdiv_lt_0_compat; assumption|].
    assert (LT : 0 <= (k - 1) * dx / (k * dz) < 1). { split; [apply Rlt_le, Rdiv_lt_0_compat; assumption|]. apply Rmult_lt_reg_r with (r := k * dz); [exact KZ|]. unfold Rdiv. rewrite Rmult_assoc, Rinv_l by lra. nra. }
    assert (Q0 := sqrt_lt_1_alt _ _ LT). rewrite sqrt_1 in Q0. exact Q0.
  Qed.
  Lemma longer_flat : deviation (map fst common) * deviation (map snd common) = 0 -> correlation [longer] [shorter] = CNaN \/ (0 < deviation (map X (seq 0 (S n))) * deviation (map snd common) /\ correlation [longer] [shorter] = CVal 0).
  Proof.
    intros D. rewrite correlation_longer. assert (C0 : codeviation common = 0). { assert (CS := dev_pairs common). rewrite D in CS. assert (Q0 := Rle_0_sqr (codeviation common)). unfold Rsqr in Q0. nra. }
    rewrite C0. unfold fdiv. destruct (Req_EM_T _ 0) as [E|NE]; [left; destruct (Req_EM_T 0 0); [reflexivity|congruence]|]. right. split; [|f_equal; unfold Rdiv; ring].
    assert (A := deviation_nonneg (map X (seq 0 (S n)))). assert (B := deviation_nonneg (map snd common)).
    destruct A as [A|A]; [|exfalso; apply NE; rewrite <- A; unfold Rdiv; rewrite Rmult_0_l, sqrt_0; ring]. destruct B as [B|B]; [|exfalso; apply NE; rewrite <- B; unfold Rdiv; rewrite !Rmult_0_l, sqrt_0; ring]. apply Rmult_lt_0_compat; assumption.
  Qed.
End Longer.
