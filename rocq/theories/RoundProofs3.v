(** Proofs for C88: the statements of the theorems. *)
From Coq Require Import Reals List Permutation Lra Lia.
From Verif Require Import Base TimeFrameModel ResultsModel StoreModel StoreSpec EnergyModel EnergySpec EnergyProofs RoundModel RoundSpec RoundFormat RoundProofs RoundProofs2 RoundDouble.
Import ListNotations.
Open Scope R_scope.

Lemma meter_bound : forall u rnd msp h chunks o, 0 <= u <= 1 -> rounds u rnd -> 0 <= msp ->
  Forall (chunk_ok h) chunks -> each_once (length chunks) o ->
  Rabs (meter_energy rnd msp chunks o - exact_meter msp (map fst chunks)) <=
    ((1 + u) ^ (h + depth o + 4) - 1) * exact_meter msp (map (fun c => amounts (fst c)) chunks).
Proof. intros u rnd msp h chunks o [U U1] R P F E. exact (proj1 (near_meter u rnd U R U1 msp h chunks o P F E)). Qed.

Lemma exact_sum_nonneg msp s : 0 <= msp -> forward s -> nonnegative s -> 0 <= exact_kwh msp s.
Proof.
  intros P F N. rewrite <- (amounts_same s N), exact_amounts. unfold Rdiv; apply Rmult_le_pos; [|left; apply Rinv_0_lt_compat; lra].
  unfold neighbours. apply forward_ahead in F. induction (there s) as [|[t v] r IH]; [cbn; lra|].
  destruct r as [|[t' v'] r]; [cbn; lra|]. destruct F as [L F]; cbn [fst] in L. specialize (IH F).
  cbn [tl combine map]. unfold sum_R; cbn [fold_right]. apply Rplus_le_le_0_compat; [|exact IH].
  unfold part_abs; cbn [fst snd]. apply Rmult_le_pos; [|apply Rabs_pos]. apply Rmin_glb; [|exact P].
  unfold Rdiv; apply Rmult_le_pos; [apply IZR_le; lia|left; apply Rinv_0_lt_compat; lra].
Qed.
Lemma exact_meter_nonneg msp h chunks : 0 <= msp -> Forall (chunk_ok h) chunks -> Forall (fun c => nonnegative (fst c)) chunks ->
  0 <= exact_meter msp (map fst chunks).
Proof.
  intros P F N. unfold exact_meter. induction F as [|c r (F1 & _) F IH]; [cbn; lra|]. apply Forall_cons_iff in N as [N1 N2].
  cbn [map]. unfold sum_R in *; cbn [fold_right]. pose proof (exact_sum_nonneg msp (fst c) P F1 N1). specialize (IH N2). lra.
Qed.

Lemma meter_order : forall u rnd msp h chunks chunks' o o', 0 <= u <= 1 -> rounds u rnd -> 0 <= msp ->
  map fst chunks = map fst chunks' ->
  Forall (chunk_ok h) chunks -> each_once (length chunks) o -> Forall (chunk_ok h) chunks' -> each_once (length chunks') o' ->
  (depth o' <= depth o)%nat -> Forall (fun c => nonnegative (fst c)) chunks -> INR (h + depth o + 4) * u <= / 2 ->
  Rabs (meter_energy rnd msp chunks o - meter_energy rnd msp chunks' o') <= 4 * INR (h + depth o + 4) * u * exact_meter msp (map fst chunks).
Proof.
  intros u rnd msp h chunks chunks' o o' U R P Eq F E F' E' D N L.
  assert (N' : Forall (fun c => nonnegative (fst c)) chunks').
  { rewrite <- (Forall_map fst nonnegative), <- Eq, Forall_map; exact N. }
  assert (I : INR (h + depth o' + 4) <= INR (h + depth o + 4)) by (apply le_INR; lia).
  assert (I2 : INR (h + depth o' + 4) * u <= INR (h + depth o + 4) * u) by (apply Rmult_le_compat_r; [lra|exact I]).
  pose proof (meter_relative u rnd msp h chunks o U R P F E N L) as K.
  pose proof (meter_relative u rnd msp h chunks' o' U R P F' E' N' ltac:(lra)) as K'.
  pose proof (exact_meter_nonneg msp h chunks P F N) as X. rewrite <- Eq in K'.
  set (e := exact_meter msp (map fst chunks)) in *.
  assert (I3 : INR (h + depth o' + 4) * u * e <= INR (h + depth o + 4) * u * e) by (apply Rmult_le_compat_r; assumption).
  apply abs_between in K; apply abs_between in K'. apply abs_between. lra.
Qed.

Lemma exact_integral : forall msp s w e, whole s w -> increasing w -> (0 <= msp)%Z -> is_energy msp w e ->
  exact_kwh (IZR msp) s = IZR e / 3600000.
Proof.
  intros msp s w e W I P E. rewrite <- (is_energy_unique _ _ _ _ (joules_is_energy msp _ P I) E).
  unfold exact_kwh, neighbours. rewrite W. f_equal. rewrite <- parts_sum. clear W E.
  induction w as [|[t v] r IH]; [reflexivity|]. destruct r as [|[t' v'] r]; [reflexivity|].
  destruct I as [L I]; cbn [fst] in L. specialize (IH I). cbn [map tl combine fst snd parts] in *. unfold sum_R, sumZ in *; cbn [fold_right] in *.
  rewrite IH, plus_IZR, mult_IZR. f_equal. f_equal.
  rewrite <- Z.mul_sub_distr_r, mult_IZR. unfold Rdiv. rewrite Rmult_assoc, Rinv_r, Rmult_1_r by lra.
  destruct (Z.le_ge_cases (t' - t) msp) as [K|K].
  - rewrite Z.min_l by exact K. apply Rmin_left, IZR_le, K.
  - rewrite Z.min_r by exact K. apply Rmin_right, IZR_le, K.
Qed.

Lemma last_opt_split (A : Type) (s : list A) x : last_opt s = Some x -> exists r, s = r ++ [x].
Proof.
  induction s as [|a [|b s] IH]; [discriminate| |].
  - intros [= <-]; exists []; reflexivity.
  - intros H. destruct (IH H) as [r E]. exists (a :: r). rewrite E; reflexivity.
Qed.
Lemma other_columns : forall u rnd, 0 <= u <= 1 -> rounds u rnd ->
  (forall s e, cumulative_energy rnd s = Ok e -> exists first last r r', s = first :: r /\ s = r' ++ [last] /\
     Rabs (e - (snd last - snd first)) <= u * Rabs (snd last - snd first)) /\
  (forall s o, each_once (length (there s)) o ->
     Rabs (sum_energy rnd s o - sum_R (map snd (there s))) <= ((1 + u) ^ depth o - 1) * sum_R (map (fun x => Rabs (snd x)) (there s))).
Proof.
  intros u rnd [U U1] R; split.
  - intros s e H. unfold cumulative_energy in H. destruct s as [|first r]; [discriminate|].
    destruct (last_opt (first :: r)) as [last|] eqn:El; [|discriminate]. injection H as <-.
    destruct (last_opt_split _ _ _ El) as [r' E]. exists first, last, r, r'. repeat (split; [reflexivity || exact E|]). apply R.
  - intros s o E. unfold sum_energy. rewrite readings_there.
    apply (near_total u rnd U R 0 (map (fun x => Rabs (snd x)) (there s)) (map snd (there s)) (map snd (there s)) o).
    + rewrite !map_length; reflexivity.
    + clear E. induction (there s) as [|x l IH]; [constructor|]. cbn [map combine]. constructor; [|exact IH]. apply near_refl; cbn; lra.
    + rewrite map_length; exact E.
Qed.

Lemma double_relative : forall msp h chunks o, 0 <= msp ->
  Forall (chunk_ok h) chunks -> each_once (length chunks) o -> Forall (fun c => nonnegative (fst c)) chunks ->
  (Z.of_nat (h + depth o + 4) <= 1125899906842624)%Z ->
  Rabs (meter_energy double msp chunks o - exact_meter msp (map fst chunks)) <=
    INR (h + depth o + 4) / 4503599627370496 * exact_meter msp (map fst chunks).
Proof.
  intros msp h chunks o P F E N L.
  assert (I : INR (h + depth o + 4) <= 1125899906842624) by (rewrite INR_IZR_INZ; apply IZR_le; exact L).
  replace (INR (h + depth o + 4) / 4503599627370496) with (2 * INR (h + depth o + 4) * / 9007199254740992) by lra.
  apply meter_relative; try assumption; [lra|exact double_rounds|lra].
Qed.

Lemma double_pos x : 0 < x -> 0 < double x.
Proof.
  intros P; pose proof (double_rounds x) as K. rewrite (Rabs_right x) in K by lra. apply abs_between in K. lra.
Qed.
Lemma signs_lost : exists msp s o o', 0 <= msp /\ forward s /\
  each_once (length (neighbours s)) o /\ each_once (length (neighbours s)) o' /\
  0 < exact_kwh msp s /\ power_energy double msp s o = 0 /\ 0 < power_energy double msp s o'.
Proof.
  exists 10, cancel, (Plus (Plus (At 0) (At 1)) (At 2)), (Plus (Plus (At 0) (At 2)) (At 1)).
  split; [lra|]. split; [cbn; lia|]. split; [right; apply Permutation_refl|].
  split; [right; cbn; apply perm_skip, perm_swap|]. rewrite cancel_exact, cancel_lost, cancel_kept.
  assert (0 < / 3600000) by (apply Rinv_0_lt_compat; lra).
  split; [assumption|]. split; [reflexivity|]. apply double_pos; assumption.
Qed.

Lemma example_chunks :
  let a := [(0%Z, Some 100); (1000000000%Z, None); (2500000000%Z, Some 40); (60000000000%Z, Some 7)] in
  let b := [(0%Z, Some 3); (1000000000%Z, Some 0)] in
  let chunks := [(a, Plus (At 1) (At 0)); (b, At 0)] in
  Forall (chunk_ok 1) chunks /\ each_once (length chunks) (Plus (At 0) (At 1)) /\ Forall (fun c => nonnegative (fst c)) chunks /\
  exact_meter 10 (map fst chunks) = (2.5 * 100 + 10 * 40 + 3) / 3600000 /\
  INR (1 + depth (Plus (At 0) (At 1)) + 4) * / 9007199254740992 <= / 2.
Proof.
  cbv zeta. split; [|split; [|split; [|split]]].
  - apply Forall_cons; [|apply Forall_cons; [|apply Forall_nil]].
    + split; [cbn; lia|split; [right; cbn; apply perm_swap|cbn; lia]].
    + split; [cbn; lia|split; [right; apply Permutation_refl|cbn; lia]].
  - right; apply Permutation_refl.
  - apply Forall_cons; [|apply Forall_cons; [|apply Forall_nil]]; intros t v I; cbn in I;
      repeat (destruct I as [I|I]; [injection I as <- <-; lra || discriminate I|]) || idtac.
    all: repeat (destruct I as [I|I]; [try discriminate I; injection I as <- <-; lra|]); contradiction.
  - unfold exact_meter, exact_kwh, neighbours; cbn [there flat_map snd fst app tl combine map]. unfold sum_R; cbn [fold_right].
    change (2500000000 - 0)%Z with 2500000000%Z. change (60000000000 - 2500000000)%Z with 57500000000%Z. change (1000000000 - 0)%Z with 1000000000%Z.
    rewrite (Rmin_left (IZR 2500000000 / 1000000000)), (Rmin_right (IZR 57500000000 / 1000000000)), (Rmin_left (IZR 1000000000 / 1000000000)) by lra. lra.
  - cbn; lra.
Qed.

Lemma example_whole : exists s w e,
  whole s w /\ increasing w /\ is_energy 10 w e /\ (e = 380)%Z /\
  is_energy 10 (map (fun x => (fst x, Z.abs (snd x))) w) 420 /\ each_once (length (neighbours s)) (Plus (At 1) (At 0)).
Proof.
  set (w := [(0, 40); (20, -5); (24, 1)]%Z).
  exists [(0%Z, Some 40); (3%Z, None); ((20 * 1000000000)%Z, Some (-5)); ((24 * 1000000000)%Z, Some 1)], w, 380%Z.
  assert (I : increasing w) by (cbn; lia).
  split; [reflexivity|]. split; [exact I|]. split; [exact (joules_is_energy 10 w ltac:(lia) I)|]. split; [reflexivity|].
  split; [exact (joules_is_energy 10 _ ltac:(lia) (increasing_abs w I))|]. right; cbn; apply perm_swap.
Qed.
