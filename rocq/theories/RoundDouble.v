(** Double precision satisfies what C88 asks of a rounding.  Uses Flocq. *)
From Coq Require Import Reals ZArith List Permutation Lra Lia.
From Flocq Require Import Core Relative.
From Verif Require Import Base RoundModel RoundSpec RoundFormat RoundProofs RoundProofs2.
Import ListNotations.
Open Scope R_scope.

#[export] Instance double_prec : Prec_gt_0 53.
Proof. reflexivity. Qed.

Lemma double_rounds : rounds (/ 9007199254740992) double.
Proof.
  intros x. eapply Rle_trans; [apply (relative_error_N_FLX radix2 53 eq_refl)|].
  apply Rmult_le_compat_r; [apply Rabs_pos|]. cbn; lra.
Qed.
Lemma double_monotone : monotone double.
Proof. intros x y L. apply round_le; [apply FLX_exp_valid; reflexivity|apply valid_rnd_N|exact L]. Qed.
Lemma double_format m e : (Z.abs m <= 9007199254740992)%Z -> generic_format radix2 (FLX_exp 53) (F2R (Float radix2 m e)).
Proof.
  intros L. destruct (Z.eq_dec (Z.abs m) 9007199254740992) as [E|E].
  - assert (K : F2R (Float radix2 m e) = F2R (Float radix2 (m / 2) (e + 1))).
    { unfold F2R; cbn [Fnum Fexp]. rewrite bpow_plus. assert (M : (m = 2 * (m / 2))%Z).
      { destruct (Z.abs_eq_or_opp m) as [A|A]; rewrite A in E; [subst m|assert (m = -9007199254740992)%Z by lia; subst m]; reflexivity. }
      rewrite M at 1. rewrite mult_IZR. change (bpow radix2 1) with 2. ring. }
    rewrite K. apply generic_format_FLX. exists (Float radix2 (m / 2) (e + 1)); [reflexivity|]. cbn [Fnum].
    change (Z.pow radix2 53) with 9007199254740992%Z. Z.to_euclidean_division_equations; lia.
  - apply generic_format_FLX. exists (Float radix2 m e); [reflexivity|]. cbn [Fnum].
    change (Z.pow radix2 53) with 9007199254740992%Z. lia.
Qed.
Lemma double_whole : keeps_whole 9007199254740992 double.
Proof.
  intros z L. unfold double. apply round_generic; [apply valid_rnd_N|].
  replace (IZR z) with (F2R (Float radix2 z 0)); [apply double_format; exact L|]. unfold F2R; cbn; lra.
Qed.

Definition big : Z := 36028797018963968.
Lemma double_big : double (IZR big) = IZR big.
Proof.
  unfold double. apply round_generic; [apply valid_rnd_N|].
  replace (IZR big) with (F2R (Float radix2 1 55)); [apply double_format; lia|]. unfold F2R, big; cbn; lra.
Qed.
Lemma double_minus_big : double (IZR (- big)) = IZR (- big).
Proof.
  unfold double. apply round_generic; [apply valid_rnd_N|].
  replace (IZR (- big)) with (F2R (Float radix2 (-1) 55)); [apply double_format; lia|]. unfold F2R, big; cbn; lra.
Qed.
Lemma double_lost : double (IZR big + 1) = IZR big.
Proof.
  unfold double, round. assert (M : mag radix2 (IZR big + 1) = 56%Z :> Z).
  { apply mag_unique. rewrite Rabs_right by (unfold big; lra). unfold big; cbn; lra. }
  assert (C : cexp radix2 (FLX_exp 53) (IZR big + 1) = 3%Z) by (unfold cexp; rewrite M; reflexivity).
  unfold scaled_mantissa. rewrite C.
  rewrite (Znearest_imp _ _ 4503599627370496).
  - unfold F2R, big; cbn; lra.
  - unfold big; cbn. apply Rabs_def1; lra.
Qed.

(** Readings of both signs: the one watt in between is lost. *)
Definition cancel : list (Z * option R) :=
  [(0%Z, Some (IZR big)); (1000000000%Z, Some 1); (2000000000%Z, Some (IZR (- big))); (3000000000%Z, Some 0)].
Lemma one_second : Rmin (seconds double 1000000000) 10 = 1.
Proof. exact (held_whole _ _ double_whole double_monotone 10 1 ltac:(lia) ltac:(lia) ltac:(lia)). Qed.
Lemma double_small z : (Z.abs z <= 9007199254740992)%Z -> double (IZR z) = IZR z.
Proof. apply double_whole. Qed.
Lemma cancel_products : products double (readings cancel) 10 = [IZR big; 1; IZR (- big)].
Proof.
  cbn [cancel readings products]. change (1000000000 - 0)%Z with 1000000000%Z.
  change (2000000000 - 1000000000)%Z with 1000000000%Z. change (3000000000 - 2000000000)%Z with 1000000000%Z.
  rewrite one_second, !Rmult_1_l, double_big, double_minus_big, (double_small 1) by lia. reflexivity.
Qed.
Lemma cancel_exact : exact_kwh 10 cancel = / 3600000.
Proof.
  unfold exact_kwh, neighbours, cancel; cbn [there flat_map snd fst app tl combine map]. unfold sum_R; cbn [fold_right].
  change (1000000000 - 0)%Z with 1000000000%Z.
  change (2000000000 - 1000000000)%Z with 1000000000%Z. change (3000000000 - 2000000000)%Z with 1000000000%Z.
  replace (IZR 1000000000 / 1000000000) with 1 by lra. rewrite Rmin_left by lra. rewrite opp_IZR; lra.
Qed.
Lemma cancel_lost : power_energy double 10 cancel (Plus (Plus (At 0) (At 1)) (At 2)) = 0.
Proof.
  unfold power_energy; rewrite cancel_products. cbn [total add_up nth]. rewrite double_lost.
  replace (IZR big + IZR (- big)) with (IZR 0) by (rewrite opp_IZR; lra). rewrite (double_small 0) by lia.
  replace (IZR 0 / 3600000) with (IZR 0) by lra. apply (double_small 0); lia.
Qed.
Lemma cancel_kept : power_energy double 10 cancel (Plus (Plus (At 0) (At 2)) (At 1)) = double (/ 3600000).
Proof.
  unfold power_energy; rewrite cancel_products. cbn [total add_up nth].
  replace (IZR big + IZR (- big)) with (IZR 0) by (rewrite opp_IZR; lra). rewrite (double_small 0) by lia.
  replace (IZR 0 + 1) with (IZR 1) by lra. rewrite (double_small 1) by lia. f_equal; lra.
Qed.
