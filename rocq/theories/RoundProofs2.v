(** Proofs for C88: whole numbers, signs and order. *)
From Coq Require Import Reals List Permutation Lra Lia.
From Verif Require Import Base TimeFrameModel ResultsModel StoreModel StoreSpec EnergyModel EnergySpec EnergyProofs RoundModel RoundSpec RoundProofs.
Import ListNotations.
Open Scope R_scope.

(** ** Whole numbers *)
Section Whole.
Variable n : Z.
Variable rnd : R -> R.
Hypothesis Hk : keeps_whole n rnd.
Hypothesis Hm : monotone rnd.

Definition at_z (l : list Z) (ps : list nat) : Z := sumZ (map (fun i => nth i l 0%Z) ps).
Lemma sumZ_app l l' : sumZ (l ++ l') = (sumZ l + sumZ l')%Z.
Proof. unfold sumZ; induction l as [|a l IH]; cbn; lia. Qed.
Lemma sumZ_perm l l' : Permutation l l' -> sumZ l = sumZ l'.
Proof. unfold sumZ; induction 1; cbn in *; lia. Qed.
Lemma sumZ_abs (A : Type) (f : A -> Z) l : (Z.abs (sumZ (map f l)) <= sumZ (map (fun x => Z.abs (f x)) l))%Z.
Proof. unfold sumZ; induction l as [|a l IH]; cbn in *; lia. Qed.
Lemma sumZ_abs_pos (A : Type) (f : A -> Z) l : (0 <= sumZ (map (fun x => Z.abs (f x)) l))%Z.
Proof. unfold sumZ; induction l as [|a l IH]; cbn in *; lia. Qed.
Lemma at_z_all l : at_z l (seq 0 (length l)) = sumZ l.
Proof.
  unfold at_z; f_equal. induction l as [|a l IH]; [reflexivity|].
  cbn [length seq map nth]; f_equal. rewrite <- seq_shift, map_map; exact IH.
Qed.

Lemma add_up_whole T o : (sumZ (map (fun i => Z.abs (nth i T 0%Z)) (positions o)) <= n)%Z ->
  add_up rnd (map IZR T) o = IZR (at_z T (positions o)).
Proof.
  induction o as [i|a IHa b IHb]; cbn [positions add_up]; intros L.
  - unfold at_z, sumZ; cbn [map fold_right]. rewrite Z.add_0_r. change 0 with (IZR 0); apply map_nth.
  - rewrite map_app, sumZ_app in L.
    pose proof (sumZ_abs_pos nat (fun i => nth i T 0%Z) (positions a)) as Pa.
    pose proof (sumZ_abs_pos nat (fun i => nth i T 0%Z) (positions b)) as Pb.
    cbv beta in Pa, Pb; rewrite IHa, IHb by lia. rewrite <- plus_IZR, Hk; [unfold at_z; rewrite map_app, sumZ_app; reflexivity|].
    pose proof (sumZ_abs nat (fun i => nth i T 0%Z) (positions a)).
    pose proof (sumZ_abs nat (fun i => nth i T 0%Z) (positions b)). cbv beta in *; unfold at_z; lia.
Qed.

Lemma total_whole T o : (sumZ (map Z.abs T) <= n)%Z -> each_once (length T) o ->
  total rnd (map IZR T) o = IZR (sumZ T).
Proof.
  intros L E. destruct T as [|t T]; [reflexivity|]. destruct E as [E|E]; [discriminate|].
  unfold total; cbn [map]. change (IZR t :: map IZR T) with (map IZR (t :: T)).
  assert (K : sumZ (map (fun i => Z.abs (nth i (t :: T) 0%Z)) (positions o)) = sumZ (map Z.abs (t :: T))).
  { rewrite (sumZ_perm _ _ (Permutation_map (fun i => Z.abs (nth i (t :: T) 0%Z)) E)).
    rewrite <- (at_z_all (map Z.abs (t :: T))), map_length; unfold at_z; f_equal.
    apply map_ext; intros i. change 0%Z with (Z.abs 0) at 2. symmetry; apply map_nth. }
  rewrite add_up_whole by lia. f_equal. unfold at_z.
  rewrite (sumZ_perm _ _ (Permutation_map (fun i => nth i (t :: T) 0%Z) E)). apply at_z_all.
Qed.

Lemma held_whole msp d : (0 <= d)%Z -> (0 <= msp)%Z -> (msp * 1000000000 <= n)%Z ->
  Rmin (seconds rnd (d * 1000000000)) (IZR msp) = IZR (Z.min d msp).
Proof.
  intros D P L. unfold seconds. destruct (Z.le_ge_cases d msp) as [K|K].
  - rewrite (Hk (d * 1000000000)%Z) by lia. rewrite mult_IZR. unfold Rdiv. rewrite Rmult_assoc, Rinv_r, Rmult_1_r by lra.
    rewrite Hk by lia. rewrite Z.min_l by exact K. apply Rmin_left, IZR_le, K.
  - rewrite Z.min_r by exact K. apply Rmin_right. rewrite <- (Hk msp) by lia. apply Hm.
    apply Rmult_le_reg_r with (IZR 1000000000); [lra|]. unfold Rdiv. rewrite Rmult_assoc, Rinv_l, Rmult_1_r by lra.
    rewrite <- mult_IZR. rewrite <- (Hk (msp * 1000000000)%Z) by lia. apply Hm, IZR_le; lia.
Qed.

Fixpoint parts (msp : Z) (s : list (Z * Z)) : list Z :=
  match s with
  | (t, v) :: (((t', _) :: _) as r) => (Z.min (t' - t) msp * v)%Z :: parts msp r
  | _ => []
  end.
Lemma parts_sum msp s : sumZ (parts msp s) = joules s msp.
Proof.
  induction s as [|[t v] r IH]; [reflexivity|]. destruct r as [|[t' v'] r]; [reflexivity|].
  change (joules ((t, v) :: (t', v') :: r) msp) with (Z.min (t' - t) msp * v + joules ((t', v') :: r) msp)%Z.
  rewrite <- IH; reflexivity.
Qed.
Lemma parts_abs msp s : (0 <= msp)%Z -> increasing s -> map Z.abs (parts msp s) = parts msp (map (fun x => (fst x, Z.abs (snd x))) s).
Proof.
  intros P; induction s as [|[t v] r IH]; intros I; [reflexivity|]. destruct r as [|[t' v'] r]; [reflexivity|].
  destruct I as [L I]; cbn [fst] in L. specialize (IH I). cbn [parts map fst snd] in *. rewrite IH. f_equal.
  rewrite Z.abs_mul. f_equal. lia.
Qed.
Lemma increasing_abs (s : list (Z * Z)) : increasing s -> increasing (map (fun x => (fst x, Z.abs (snd x))) s).
Proof.
  induction s as [|[t v] r IH]; intros I; [exact I|]. destruct r as [|[t' v'] r]; [exact I|].
  destruct I as [L I]; split; [exact L|exact (IH I)].
Qed.
Lemma parts_length msp s : length (parts msp s) = length (combine s (tl s)).
Proof.
  induction s as [|[t v] r IH]; [reflexivity|]. destruct r as [|[t' v'] r]; [reflexivity|].
  cbn [parts length tl combine] in *. rewrite IH; reflexivity.
Qed.

Lemma products_whole msp w : (0 <= msp)%Z -> (msp * 1000000000 <= n)%Z -> increasing w ->
  (sumZ (map Z.abs (parts msp w)) <= n)%Z ->
  products rnd (map (fun x => ((fst x * 1000000000)%Z, IZR (snd x))) w) (IZR msp) = map IZR (parts msp w).
Proof.
  intros P L; induction w as [|[t v] r IH]; intros I B; [reflexivity|]. destruct r as [|[t' v'] r]; [reflexivity|].
  destruct I as [Lt I]; cbn [fst] in Lt. specialize (IH I).
  change (parts msp ((t, v) :: (t', v') :: r)) with ((Z.min (t' - t) msp * v)%Z :: parts msp ((t', v') :: r)) in *.
  cbn [map] in B. unfold sumZ in B; cbn [fold_right] in B; fold (sumZ (map Z.abs (parts msp ((t', v') :: r)))) in B.
  pose proof (sumZ_abs_pos Z (fun z => z) (parts msp ((t', v') :: r))) as K; cbv beta in K; change (fun x => Z.abs x) with Z.abs in K.
  assert (B2 : (Z.abs (Z.min (t' - t) msp * v) <= n)%Z) by (generalize dependent (Z.min (t' - t) msp * v)%Z; intros; lia).
  assert (B3 : (sumZ (map Z.abs (parts msp ((t', v') :: r))) <= n)%Z) by (generalize dependent (Z.min (t' - t) msp * v)%Z; intros; lia).
  specialize (IH B3). cbn [map products fst snd] in *. rewrite IH. f_equal.
  rewrite <- Z.mul_sub_distr_r, held_whole by lia. rewrite <- mult_IZR. apply Hk; exact B2.
Qed.

Lemma power_whole msp s w o e m : whole s w -> increasing w -> (0 <= msp)%Z -> (msp * 1000000000 <= n)%Z ->
  is_energy msp w e -> is_energy msp (map (fun x => (fst x, Z.abs (snd x))) w) m -> (m <= n)%Z ->
  each_once (length (neighbours s)) o ->
  power_energy rnd (IZR msp) s o = rnd (IZR e / 3600000).
Proof.
  intros W I P L E M B O. unfold power_energy. rewrite readings_there, W.
  assert (Bd : (sumZ (map Z.abs (parts msp w)) <= n)%Z).
  { rewrite parts_abs by assumption. rewrite parts_sum.
    rewrite (is_energy_unique _ _ _ _ (joules_is_energy msp _ P (increasing_abs w I)) M); exact B. }
  rewrite products_whole by assumption. rewrite total_whole; [|exact Bd|].
  - rewrite parts_sum, (is_energy_unique _ _ _ _ (joules_is_energy msp _ P I) E); reflexivity.
  - rewrite parts_length. unfold neighbours in O. rewrite W, map_tl, combine_map, map_length in O; exact O.
Qed.
End Whole.

(** ** Signs *)
Lemma add_up_mono rnd T T' o : monotone rnd -> (forall i, nth i T 0 <= nth i T' 0) -> add_up rnd T o <= add_up rnd T' o.
Proof.
  intros M H; induction o as [i|a IHa b IHb]; cbn [add_up]; [apply H|]. apply M; lra.
Qed.
Lemma nth_forall2 T T' : Forall2 Rle T T' -> forall i, nth i T 0 <= nth i T' 0.
Proof. induction 1; intros [|i]; cbn; try lra; auto. Qed.
Lemma total_mono rnd T T' o : monotone rnd -> Forall2 Rle T T' -> total rnd T o <= total rnd T' o.
Proof.
  intros M F; pose proof (add_up_mono rnd T T' o M (nth_forall2 _ _ F)) as K.
  destruct F; [cbn; lra|exact K].
Qed.

Lemma products_mono u rnd msp s s' : 0 <= u <= 1 -> rounds u rnd -> monotone rnd -> 0 <= msp -> ahead s ->
  Forall2 (fun x y => fst x = fst y /\ snd x <= snd y) s s' -> Forall2 Rle (products rnd s msp) (products rnd s' msp).
Proof.
  intros [U U1] R M P; revert s'; induction s as [|[t v] r IH]; intros s' A F.
  - inversion F; constructor.
  - inversion F as [|? [t2 v2] ? r2 [E1 E2] F2]; subst; cbn [fst snd] in *; subst t2.
    destruct r as [|[t' v'] r]; inversion F2 as [|? [t3 v3] ? r3 [E3 E4] F3]; subst; cbn [fst snd] in *; [constructor|]. subst t3.
    destruct A as [L A]; cbn [fst] in L. specialize (IH _ A F2). cbn [products] in *. constructor; [|exact IH].
    apply M, Rmult_le_compat_l; [|exact E2]. apply Rmin_glb; [|exact P]. apply (seconds_nonneg u rnd R U1); lia.
Qed.
Lemma at_most_there s s' : at_most s s' -> Forall2 (fun x y => fst x = fst y /\ snd x <= snd y) (there s) (there s').
Proof.
  induction 1 as [|[t [v|]] [t' [v'|]] r r' [E1 E2] F IH]; cbn [fst snd] in *; [constructor| |contradiction|contradiction|exact IH].
  constructor; [split; [exact E1|exact E2]|exact IH].
Qed.
Lemma power_mono u rnd msp s s' o : 0 <= u <= 1 -> rounds u rnd -> monotone rnd -> 0 <= msp -> forward s ->
  at_most s s' -> power_energy rnd msp s o <= power_energy rnd msp s' o.
Proof.
  intros U R M P F L. unfold power_energy. apply M, Rmult_le_compat_r; [left; apply Rinv_0_lt_compat; lra|].
  apply total_mono; [exact M|]. rewrite !readings_there.
  apply (products_mono u); try assumption; [apply forward_ahead; exact F|apply at_most_there; exact L].
Qed.
Lemma meter_mono u rnd msp chunks chunks' o : 0 <= u <= 1 -> rounds u rnd -> monotone rnd -> 0 <= msp ->
  Forall (fun c => forward (fst c)) chunks ->
  Forall2 (fun c c' => at_most (fst c) (fst c') /\ snd c = snd c') chunks chunks' ->
  meter_energy rnd msp chunks o <= meter_energy rnd msp chunks' o.
Proof.
  intros U R M P Fw F. unfold meter_energy. apply total_mono; [exact M|].
  induction F as [|c c' r r' [K1 K2] F IH]; [constructor|]. apply Forall_cons_iff in Fw as [F1 F2].
  constructor; [|exact (IH F2)]. rewrite K2. apply (power_mono u); assumption.
Qed.

Lemma add_up_sign u rnd T o : 0 <= u <= 1 -> rounds u rnd -> (forall i, 0 <= nth i T 0) -> 0 <= add_up rnd T o.
Proof.
  intros [U U1] R H; induction o as [i|a IHa b IHb]; cbn [add_up]; [apply H|]. apply (round_nonneg u rnd R U1); lra.
Qed.
Lemma total_sign u rnd T o : 0 <= u <= 1 -> rounds u rnd -> Forall (Rle 0) T -> 0 <= total rnd T o.
Proof.
  intros U R F. assert (K : 0 <= add_up rnd T o).
  { apply (add_up_sign u); [exact U|exact R|]. clear U R. induction F; intros [|i]; cbn; try lra; auto. }
  destruct T; [cbn; lra|exact K].
Qed.
Lemma products_sign u rnd msp s : 0 <= u <= 1 -> rounds u rnd -> 0 <= msp -> ahead s -> Forall (fun x => 0 <= snd x) s ->
  Forall (Rle 0) (products rnd s msp).
Proof.
  intros [U U1] R P; induction s as [|[t v] r IH]; intros A F; [constructor|]. destruct r as [|[t' v'] r]; [constructor|].
  destruct A as [L A]; cbn [fst] in L. apply Forall_cons_iff in F as [F1 F2]. cbn [products]. constructor; [|exact (IH A F2)].
  apply (round_nonneg u rnd R U1), Rmult_le_pos; [|exact F1]. apply Rmin_glb; [|exact P]. apply (seconds_nonneg u rnd R U1); lia.
Qed.
Lemma meter_sign u rnd msp chunks o : 0 <= u <= 1 -> rounds u rnd -> 0 <= msp ->
  Forall (fun c => forward (fst c) /\ nonnegative (fst c)) chunks -> 0 <= meter_energy rnd msp chunks o.
Proof.
  intros U R P F. unfold meter_energy. apply (total_sign u); [exact U|exact R|].
  rewrite Forall_map. eapply Forall_impl; [|exact F]. intros [s o'] [F1 F2]; cbn [fst snd] in *.
  unfold power_energy. destruct U as [U U1]. apply (round_nonneg u rnd R U1), Rmult_le_pos; [|left; apply Rinv_0_lt_compat; lra].
  apply (total_sign u); [split; assumption|exact R|]. rewrite readings_there.
  apply (products_sign u); [split; assumption|exact R|exact P|apply forward_ahead; exact F1|].
  rewrite Forall_forall; intros [t v] I. apply there_in in I. exact (F2 t v I).
Qed.

(** ** All readings 0 *)
Lemma exact_zero msp s : (forall t v, In (t, Some v) s -> v = 0) -> exact_kwh msp s = 0.
Proof.
  intros Z. unfold exact_kwh. replace (sum_R _) with 0; [lra|]. symmetry. unfold neighbours.
  assert (K : forall p, In p (combine (there s) (tl (there s))) -> snd (fst p) = 0).
  { intros [[t v] y] I. apply in_combine_l, there_in in I. exact (Z t v I). }
  induction (combine (there s) (tl (there s))) as [|p l IH]; [reflexivity|]. cbn [map]. unfold sum_R in *; cbn [fold_right].
  rewrite (K p (or_introl eq_refl)), IH; [lra|]. intros q I; apply K; right; exact I.
Qed.
Lemma meter_zero u rnd msp h chunks o : 0 <= u <= 1 -> rounds u rnd -> 0 <= msp ->
  Forall (chunk_ok h) chunks -> each_once (length chunks) o ->
  Forall (fun c => forall t v, In (t, Some v) (fst c) -> v = 0) chunks -> meter_energy rnd msp chunks o = 0.
Proof.
  intros [U U1] R P F E Z. destruct (near_meter u rnd U R U1 msp h chunks o P F E) as [K1 K2].
  assert (A : map (fun c => amounts (fst c)) chunks = map fst chunks).
  { apply map_ext_in; intros c I; apply amounts_same. rewrite Forall_forall in Z. intros t v J. rewrite (Z c I t v J); lra. }
  assert (X : exact_meter msp (map fst chunks) = 0).
  { unfold exact_meter. clear -Z. induction Z as [|c r Zc Zr IH]; [reflexivity|]. cbn [map]. unfold sum_R in *; cbn [fold_right].
    rewrite IH, exact_zero by exact Zc; lra. }
  rewrite A, X in K1. rewrite Rminus_0_r, Rmult_0_r in K1. pose proof (Rabs_pos (meter_energy rnd msp chunks o)).
  destruct (Req_dec (meter_energy rnd msp chunks o) 0) as [|K]; [assumption|]. apply Rabs_no_R0 in K; lra.
Qed.
