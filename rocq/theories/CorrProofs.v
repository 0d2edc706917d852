From Coq Require Import Reals Lra Psatz.
From Verif Require Import Base CorrModel CorrSpec.
Open Scope R_scope.

Lemma rsum_app l l' : rsum (l ++ l') = rsum l + rsum l'.
Proof. unfold rsum. induction l as [|x l IH]; cbn; [lra|]. rewrite IH. lra. Qed.
Lemma opt_sum_some (l : list R) : opt_sum (map Some l) = rsum l.
Proof. unfold opt_sum, rsum. induction l as [|x l IH]; cbn; [reflexivity|]. rewrite IH. reflexivity. Qed.

Lemma count_acc cs : forall n c, sum_and_count cs n c = ((n + length (concat cs))%nat, c + opt_sum (map snd (concat cs))).
Proof.
  assert (APP : forall l l', opt_sum (l ++ l') = opt_sum l + opt_sum l') by (unfold opt_sum; induction l as [|[x|] l IH]; intros l'; cbn; [lra| |apply IH]; rewrite IH; lra).
  induction cs as [|d cs IH]; intros n c; cbn [sum_and_count concat]; [cbn; rewrite Nat.add_0_r, Rplus_0_r; reflexivity|]. rewrite IH, app_length, map_app, APP. f_equal; [rewrite Nat.add_assoc; reflexivity|lra].
Qed.
Lemma opt_sum_app l : forall l', opt_sum (l ++ l') = opt_sum l + opt_sum l'.
Proof. unfold opt_sum. induction l as [|[x|] l IH]; intros l'; cbn; [lra| |apply IH]; rewrite IH; lra. Qed.
Lemma square_acc cs m : forall a, square_sum cs m a = a + opt_sum (map (fun p => opt_mult (opt_minus (snd p) m) (opt_minus (snd p) m)) (concat cs)).
Proof.
  induction cs as [|d cs IH]; intros a; cbn [square_sum concat]; [cbn; lra|]. rewrite IH, map_app, opt_sum_app. lra.
Qed.

(** What [aligned] lists contain. *)
Lemma aligned_fst xs ys ps : aligned xs ys ps -> map snd (concat xs) = map (fun p => Some (fst p)) ps /\ map snd (concat ys) = map (fun p => Some (snd p)) ps /\ length (concat xs) = length ps /\ length (concat ys) = length ps.
Proof.
  induction 1 as [|tps xs ys ps H (A & B & C & D)]; [repeat split|]. cbn [concat]. rewrite !map_app, !app_length, !map_map, !map_length, A, B, C, D. repeat split.
Qed.
Lemma square_some m ps (f : R * R -> R) (l : chunk) : map snd l = map (fun p => Some (f p)) ps ->
  opt_sum (map (fun p => opt_mult (opt_minus (snd p) m) (opt_minus (snd p) m)) l) = rsum (map (fun x => (x - m) * (x - m)) (map f ps)).
Proof.
  intros H. transitivity (opt_sum (map (fun v => opt_mult (opt_minus v m) (opt_minus v m)) (map snd l))); [rewrite map_map; reflexivity|]. rewrite H, !map_map. rewrite <- opt_sum_some, map_map. reflexivity.
Qed.
Lemma numerator_aligned xs ys ps mx my : aligned xs ys ps -> forall a, numerator xs ys mx my a = a + rsum (map (fun p => (fst p - mx) * (snd p - my)) ps).
Proof.
  induction 1 as [|tps xs ys ps H IH]; intros a; cbn [numerator]; [cbn; lra|]. rewrite IH, map_app, rsum_app, <- Rplus_assoc. f_equal. f_equal.
  unfold product. destruct (list_eq_dec Z.eq_dec _ _) as [_|N].
  - rewrite <- opt_sum_some. f_equal. unfold centred. rewrite !map_map. clear. induction tps as [|t tps IH]; [reflexivity|]. cbn in IH |- *. f_equal. exact IH.
  - exfalso. apply N. unfold centred. rewrite !map_map. apply map_ext. reflexivity.
Qed.

(** Cauchy and Schwarz. *)
Lemma sum_sq_nonneg (l : list R) (f : R -> R) : 0 <= rsum (map (fun x => f x * f x) l).
Proof. unfold rsum. induction l as [|x l IH]; cbn; [lra|]. assert (X := Rle_0_sqr (f x)). unfold Rsqr in X. lra. Qed.
Lemma cs_step S A B a b : 0 <= A -> 0 <= B -> S * S <= A * B -> (a * b + S) * (a * b + S) <= (a * a + A) * (b * b + B).
Proof.
  intros HA HB H. enough (2 * (S * (a * b)) <= A * (b * b) + B * (a * a)) by nra.
  assert (P : 0 <= A * (b * b) + B * (a * a)) by (apply Rplus_le_le_0_compat; apply Rmult_le_pos; try assumption; apply Rle_0_sqr).
  apply Rsqr_incr_0_var; [|exact P]. unfold Rsqr.
  assert (Q : 4 * (A * B) * ((a * b) * (a * b)) <= (A * (b * b) + B * (a * a)) * (A * (b * b) + B * (a * a))).
  { assert (X := Rle_0_sqr (A * (b * b) - B * (a * a))). unfold Rsqr in X. nra. }
  assert (Y := Rle_0_sqr (a * b)). unfold Rsqr in Y. nra.
Qed.
Lemma cauchy {T} (l : list T) (f g : T -> R) : rsum (map (fun p => f p * g p) l) * rsum (map (fun p => f p * g p) l) <= rsum (map (fun p => f p * f p) l) * rsum (map (fun p => g p * g p) l) /\ 0 <= rsum (map (fun p => f p * f p) l) /\ 0 <= rsum (map (fun p => g p * g p) l).
Proof.
  unfold rsum. induction l as [|p l (IH & A & B)]; cbn [map fold_right]; [lra|]. split; [apply cs_step; assumption|].
  assert (X := Rle_0_sqr (f p)). assert (Y := Rle_0_sqr (g p)). unfold Rsqr in *. split; lra.
Qed.

Lemma leb_1 n : (2 <= n)%nat -> Nat.leb n 1 = false.
Proof. intros H. apply Nat.leb_gt. lia. Qed.
Lemma INR_ge2 n : (2 <= n)%nat -> 1 <= INR n - 1.
Proof. intros H. apply le_INR in H. cbn in H. lra. Qed.

Lemma correlation_aligned xs ys ps : aligned xs ys ps ->
  correlation xs ys = if Nat.leb (length ps) 1 then CNaN else
    fdiv (codeviation ps) ((INR (length ps) - 1) * sqrt (deviation (map fst ps) / (INR (length ps) - 1)) * sqrt (deviation (map snd ps) / (INR (length ps) - 1))).
Proof.
  intros H. destruct (aligned_fst xs ys ps H) as (A & B & C & D). unfold correlation. rewrite !count_acc, C, D, !Nat.add_0_l, !Rplus_0_l. destruct (Nat.leb (length ps) 1); [reflexivity|].
  assert (EX : opt_sum (map snd (concat xs)) = rsum (map fst ps)) by (rewrite A, <- opt_sum_some, map_map; reflexivity).
  assert (EY : opt_sum (map snd (concat ys)) = rsum (map snd ps)) by (rewrite B, <- opt_sum_some, map_map; reflexivity).
  rewrite EX, EY. rewrite (numerator_aligned xs ys ps _ _ H), Rplus_0_l. unfold stdev. rewrite !square_acc, !Rplus_0_l.
  rewrite (square_some _ ps fst (concat xs) A), (square_some _ ps snd (concat ys) B). unfold codeviation, deviation, mean. rewrite !map_length. reflexivity.
Qed.

Lemma deviation_nonneg l : 0 <= deviation l.
Proof. apply (sum_sq_nonneg l (fun x => x - mean l)). Qed.
Lemma dev_pairs ps : codeviation ps * codeviation ps <= deviation (map fst ps) * deviation (map snd ps).
Proof.
  unfold codeviation, deviation. rewrite !map_map. apply (cauchy ps (fun p => fst p - mean (map fst ps)) (fun p => snd p - mean (map snd ps))).
Qed.

Lemma denominator n a b : 1 <= n -> 0 <= a -> 0 <= b -> n * sqrt (a / n) * sqrt (b / n) = sqrt (a * b).
Proof.
  intros HN HA HB. assert (I : 0 < / n) by (apply Rinv_0_lt_compat; lra).
  unfold Rdiv. rewrite !sqrt_mult by lra.
  transitivity ((n * (sqrt (/ n) * sqrt (/ n))) * (sqrt a * sqrt b)); [ring|]. rewrite sqrt_sqrt by lra. rewrite Rinv_r by lra. ring.
Qed.

Lemma corr_main xs ys ps : aligned xs ys ps -> (2 <= length ps)%nat ->
  (0 < deviation (map fst ps) * deviation (map snd ps) -> correlation xs ys = CVal (codeviation ps / sqrt (deviation (map fst ps) * deviation (map snd ps)))) /\
  (deviation (map fst ps) * deviation (map snd ps) = 0 -> correlation xs ys = CNaN).
Proof.
  intros H HL. rewrite (correlation_aligned xs ys ps H), (leb_1 _ HL). rewrite denominator; [|apply INR_ge2; exact HL|apply deviation_nonneg|apply deviation_nonneg].
  assert (CS := dev_pairs ps). set (D := deviation (map fst ps) * deviation (map snd ps)) in *. split; intros HD.
  - unfold fdiv. destruct (Req_EM_T (sqrt D) 0) as [E|E]; [|reflexivity]. apply sqrt_eq_0 in E; lra.
  - rewrite HD, sqrt_0 in *. unfold fdiv. destruct (Req_EM_T 0 0) as [_|N]; [|lra]. destruct (Req_EM_T (codeviation ps) 0) as [_|N]; [reflexivity|]. exfalso. apply N. assert (X := Rle_0_sqr (codeviation ps)). unfold Rsqr in X. apply Rmult_integral_contrapositive_currified with (r1 := codeviation ps) in N; [|exact N]. lra.
Qed.

Lemma pearson_bound ps r : pearson ps r -> -1 <= r <= 1.
Proof.
  intros [HD ->]. assert (CS := dev_pairs ps). set (D := deviation (map fst ps) * deviation (map snd ps)) in *. assert (S : 0 < sqrt D) by (apply sqrt_lt_R0; exact HD).
  assert (SS : sqrt D * sqrt D = D) by (apply sqrt_sqrt; lra).
  assert (B : Rabs (codeviation ps) <= sqrt D). { apply Rsqr_incr_0_var; [|lra]. rewrite <- Rsqr_abs. unfold Rsqr. rewrite SS. exact CS. }
  assert (B2 : - sqrt D <= codeviation ps <= sqrt D) by (apply Rabs_def2b in B || (unfold Rabs in B; destruct (Rcase_abs (codeviation ps)); lra); lra).
  split; apply Rmult_le_reg_r with (r := sqrt D); try exact S; unfold Rdiv; rewrite Rmult_assoc, Rinv_l by lra; lra.
Qed.
Lemma swap_pairs ps : codeviation (map (fun p => (snd p, fst p)) ps) = codeviation ps /\ map fst (map (fun p : R * R => (snd p, fst p)) ps) = map snd ps /\ map snd (map (fun p : R * R => (snd p, fst p)) ps) = map fst ps.
Proof.
  assert (A : map fst (map (fun p : R * R => (snd p, fst p)) ps) = map snd ps) by (rewrite map_map; reflexivity). assert (B : map snd (map (fun p : R * R => (snd p, fst p)) ps) = map fst ps) by (rewrite map_map; reflexivity).
  split; [|auto]. unfold codeviation. rewrite A, B, map_map. f_equal. apply map_ext. intros p. cbn. ring.
Qed.
Lemma aligned_swap xs ys ps : aligned xs ys ps -> aligned ys xs (map (fun p => (snd p, fst p)) ps).
Proof.
  induction 1 as [|tps xs ys ps H IH]; [constructor|]. rewrite map_app, map_map.
  assert (X := al_cons (map (fun t => (fst t, (snd (snd t), fst (snd t)))) tps) ys xs _ IH). rewrite !map_map in X. cbn in X. exact X.
Qed.

Lemma corr_short xs ys ps : aligned xs ys ps -> (length ps < 2)%nat -> correlation xs ys = CNaN.
Proof. intros H HL. rewrite (correlation_aligned xs ys ps H). destruct (Nat.leb_spec (length ps) 1); [reflexivity|lia]. Qed.
Lemma dev_cases ps : 0 < deviation (map fst ps) * deviation (map snd ps) \/ deviation (map fst ps) * deviation (map snd ps) = 0.
Proof.
  assert (A := deviation_nonneg (map fst ps)). assert (B := deviation_nonneg (map snd ps)). assert (X := Rmult_le_pos _ _ A B). lra.
Qed.
Lemma corr_pearson xs ys ps : aligned xs ys ps ->
  ((2 <= length ps)%nat -> forall r, correlation xs ys = CVal r <-> pearson ps r) /\
  (correlation xs ys = CNaN <-> (length ps < 2)%nat \/ deviation (map fst ps) = 0 \/ deviation (map snd ps) = 0).
Proof.
  intros H. split.
  - intros HL r. destruct (corr_main xs ys ps H HL) as [P Z]. destruct (dev_cases ps) as [D|D].
    + rewrite (P D). split; [intros [= <-]; split; [exact D|reflexivity]|intros [_ ->]; reflexivity].
    + rewrite (Z D). split; [discriminate|]. intros [X _]. lra.
  - destruct (Nat.lt_ge_cases (length ps) 2) as [HL|HL]; [rewrite (corr_short xs ys ps H HL); split; auto|]. destruct (corr_main xs ys ps H HL) as [P Z]. destruct (dev_cases ps) as [D|D].
    + rewrite (P D). split; [discriminate|]. intros [X|[X|X]]; [lia| |]; rewrite X in D; lra.
    + rewrite (Z D). split; [|reflexivity]. intros _. right. apply Rmult_integral. exact D.
Qed.
Lemma corr_bounds xs ys ps r : aligned xs ys ps -> correlation xs ys = CVal r -> -1 <= r <= 1.
Proof.
  intros H E. destruct (Nat.lt_ge_cases (length ps) 2) as [HL|HL]; [rewrite (corr_short xs ys ps H HL) in E; discriminate|]. apply (pearson_bound ps). apply (proj1 (corr_pearson xs ys ps H) HL r). exact E.
Qed.
Lemma corr_symmetric xs ys ps : aligned xs ys ps -> correlation ys xs = correlation xs ys.
Proof.
  intros H. rewrite (correlation_aligned _ _ _ H), (correlation_aligned _ _ _ (aligned_swap _ _ _ H)), map_length. destruct (swap_pairs ps) as (A & B & C). rewrite A, B, C. destruct (Nat.leb (length ps) 1); [reflexivity|]. f_equal. ring.
Qed.
Lemma corr_chunks xs ys xs' ys' ps : aligned xs ys ps -> aligned xs' ys' ps -> correlation xs' ys' = correlation xs ys.
Proof. intros H H'. rewrite (correlation_aligned _ _ _ H), (correlation_aligned _ _ _ H'). reflexivity. Qed.
Lemma corr_self xs ps : aligned xs xs ps -> (2 <= length ps)%nat -> 0 < deviation (map fst ps) -> correlation xs xs = CVal 1.
Proof.
  intros H HL D. destruct (aligned_fst _ _ _ H) as (A & B & _ & _). rewrite A in B.
  assert (E : map fst ps = map snd ps). { clear - B. induction ps as [|[x y] ps IH]; [reflexivity|]. cbn in B |- *. injection B as B1 B2. subst. rewrite (IH B2). reflexivity. }
  assert (C : codeviation ps = deviation (map fst ps)). { unfold codeviation, deviation. rewrite <- E, map_map. f_equal. assert (F : Forall (fun p => fst p = snd p) ps). { clear - B. induction ps as [|[x y] ps IH]; constructor; cbn in *; injection B as B1 B2; auto. } clear - F. set (m := mean (map fst ps)). clearbody m. induction F as [|p l P F IH]; [reflexivity|]. cbn. rewrite IH, P. reflexivity. }
  rewrite (proj1 (corr_main xs xs ps H HL)); [|rewrite <- E; nra]. rewrite C, <- E, sqrt_square by lra. f_equal. field. lra.
Qed.

Lemma fdiv_same num k a b c r : a = c -> b = c -> 0 <= c -> k * c <> 0 -> num = r * (k * c) -> fdiv num (k * sqrt a * sqrt b) = CVal r.
Proof.
  intros -> -> HC HK ->. rewrite Rmult_assoc, sqrt_sqrt by exact HC. unfold fdiv. destruct (Req_EM_T (k * c) 0); [contradiction|]. f_equal. field. split; intro Z; apply HK; rewrite Z; ring.
Qed.
Ltac corr_compute c := unfold correlation; rewrite !count_acc; unfold stdev; rewrite !square_acc; cbn; apply (fdiv_same _ _ _ _ c); lra.
Definition wx : list chunk := [[(0%Z, Some 0); (1%Z, Some 1)]].
Definition wx2 : list chunk := [[(0%Z, Some 0)]; [(1%Z, Some 1)]].
Definition wy : list chunk := [[(0%Z, Some (-1)); (1%Z, Some 1); (2%Z, Some 0); (3%Z, Some 0); (4%Z, Some 0)]].
Definition wz : list chunk := [[(0%Z, Some 1); (1%Z, Some 0)]].
Lemma corr_span : exists xs ys,
  Forall (fun c => c <> []) (xs ++ ys) /\ correlation xs ys = CVal 2 /\ correlation ys xs = CVal (/ 2).
Proof.
  exists wx, wy. split; [repeat constructor; discriminate|]. split; corr_compute (/ 2).
Qed.
Lemma corr_cut : exists xs ys ys',
  concat ys = concat ys' /\ Forall (fun c => c <> []) (xs ++ ys ++ ys') /\ correlation xs ys = CVal 1 /\ correlation xs ys' = CVal (/ 2).
Proof.
  exists wx, wx, wx2. split; [reflexivity|]. split; [repeat constructor; discriminate|]. split; corr_compute (/ 2).
Qed.
Lemma corr_gap : exists xs ys gx gy,
  correlation xs ys = CVal (-1) /\ gx = map (fun c => c ++ [(2%Z, None)]) xs /\ gy = map (fun c => c ++ [(2%Z, None)]) ys /\
  correlation gx gy = CVal (-(4 / 5)).
Proof.
  exists wx, wz. do 2 eexists. split; [corr_compute (/ 2)|]. split; [reflexivity|]. split; [reflexivity|]. corr_compute (5 / 18).
Qed.

Lemma corr_few xs ys : (length (concat xs) < 2)%nat \/ (length (concat ys) < 2)%nat -> correlation xs ys = CNaN.
Proof.
  intros H. unfold correlation. rewrite !count_acc. cbn [Nat.add]. destruct (Nat.leb_spec (length (concat xs)) 1) as [K|K]; [reflexivity|].
  destruct (Nat.leb_spec (length (concat ys)) 1) as [K'|K']; [reflexivity|]. lia.
Qed.
