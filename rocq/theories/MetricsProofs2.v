From Coq Require Import QArith Qabs Reals Qreals Lia Lqa Permutation.
From Verif Require Import Base TopModel TopSpec TopProofs ResampleModel MetricsModel MetricsSpec MetricsProofs.
Open Scope Q_scope.

(** f1 *)
Lemma cases_nonneg a b ps n : cases a b ps n -> (0 <= n)%Z.
Proof. induction 1; lia. Qed.
Lemma cases_fun a b ps n : cases a b ps n -> forall m, cases a b ps m -> n = m.
Proof.
  induction 1 as [|l n H IH|x l n N H IH]; intros m M; inversion M; subst; try congruence; try (f_equal; apply IH; assumption); try (apply IH; assumption).
Qed.
Lemma cases_ex a b ps : exists n, cases a b ps n.
Proof.
  induction ps as [|[x y] ps [n IH]]; [exists 0%Z; constructor|]. destruct (Bool.bool_dec x a) as [->|N]; [destruct (Bool.bool_dec y b) as [->|N]|].
  - exists (n + 1)%Z. constructor. exact IH.
  - exists n. constructor; [congruence|exact IH].
  - exists n. constructor; [congruence|exact IH].
Qed.
Definition hit (a b : bool) (p : bool * bool) : bool := Bool.eqb (fst p) a && Bool.eqb (snd p) b.
Lemma count_cases a b (f : bool * bool -> bool) ps n : (forall p, f p = hit a b p) -> cases a b ps n -> count_pairs f ps == inject_Z n.
Proof.
  intros E. unfold count_pairs, qlen. induction 1 as [|l n H IH|x l n N H IH]; cbn [filter].
  - reflexivity.
  - assert (X : f (a, b) = true) by (rewrite E; unfold hit; cbn; rewrite !Bool.eqb_reflx; reflexivity). rewrite X. cbn [length]. rewrite Nat2Z.inj_succ. unfold Z.succ. rewrite !inject_Z_plus, IH. reflexivity.
  - assert (X : f x = false). { rewrite E. unfold hit. destruct x as [x y]. cbn. destruct (Bool.eqb x a) eqn:EA; [|reflexivity]. destruct (Bool.eqb y b) eqn:EB; [|reflexivity]. apply Bool.eqb_prop in EA, EB. subst. congruence. } rewrite X. exact IH.
Qed.
Lemma f1_counts ps tp fp fn : cases true true ps tp -> cases false true ps fp -> cases true false ps fn ->
  ((2 * tp + fp + fn = 0)%Z -> sklearn_f1 ps == 0) /\ ((2 * tp + fp + fn <> 0)%Z -> sklearn_f1 ps == inject_Z (2 * tp) / inject_Z (2 * tp + fp + fn)).
Proof.
  intros A B C. unfold sklearn_f1.
  assert (EA := count_cases true true (fun p => fst p && snd p) ps tp ltac:(intros [[] []]; reflexivity) A).
  assert (EB := count_cases false true (fun p => negb (fst p) && snd p) ps fp ltac:(intros [[] []]; reflexivity) B).
  assert (EC := count_cases true false (fun p => fst p && negb (snd p)) ps fn ltac:(intros [[] []]; reflexivity) C).
  set (x := count_pairs (fun p => fst p && snd p) ps) in *. set (y := count_pairs (fun p => negb (fst p) && snd p) ps) in *. set (z := count_pairs (fun p => fst p && negb (snd p)) ps) in *. clearbody x y z.
  assert (D : 2 * x + y + z == inject_Z (2 * tp + fp + fn)) by (rewrite EA, EB, EC, !inject_Z_plus, inject_Z_mult; change (inject_Z 2) with 2; reflexivity).
  assert (T : 2 * x == inject_Z (2 * tp)) by (rewrite EA, inject_Z_mult; change (inject_Z 2) with 2; reflexivity). split; intros H.
  - rewrite H in D. destruct (Qeq_bool (2 * x + y + z) 0) eqn:E; [reflexivity|]. apply Qeq_bool_neq in E. exfalso. apply E. exact D.
  - destruct (Qeq_bool (2 * x + y + z) 0) eqn:E; [|rewrite D, T; reflexivity]. apply Qeq_bool_eq in E. exfalso. apply H. rewrite E in D. change 0 with (inject_Z 0) in D. symmetry in D. apply (proj1 (inject_Z_injective _ _)) in D. exact D.
Qed.

Lemma inj_le a b : (a <= b)%Z -> inject_Z a <= inject_Z b.
Proof. rewrite <- Zle_Qle. auto. Qed.
Lemma inj_lt a b : (a < b)%Z -> inject_Z a < inject_Z b.
Proof. rewrite <- Zlt_Qlt. auto. Qed.
Lemma f1_bounds ps : 0 <= sklearn_f1 ps <= 1 /\ (sklearn_f1 ps == 1 <-> Forall (fun p => fst p = snd p) ps /\ In (true, true) ps).
Proof.
  destruct (cases_ex true true ps) as [tp A], (cases_ex false true ps) as [fp B], (cases_ex true false ps) as [fn C].
  destruct (f1_counts ps tp fp fn A B C) as [Z N]. assert (PA := cases_nonneg _ _ _ _ A). assert (PB := cases_nonneg _ _ _ _ B). assert (PC := cases_nonneg _ _ _ _ C).
  assert (HIT : (0 < tp)%Z <-> In (true, true) ps). { clear - A. induction A as [|l n H IH|x l n NE H IH]; [split; [lia|intros []]| |]. { split; [left; reflexivity|]. assert (X := cases_nonneg _ _ _ _ H). lia. } rewrite IH. cbn. split; [auto|]. intros [E|I]; [congruence|exact I]. }
  assert (AGREE : (fp = 0 /\ fn = 0)%Z <-> Forall (fun p => fst p = snd p) ps).
  { clear - B C. revert fn C. induction B as [|l n H IH|x l n NE H IH]; intros fn C.
    - inversion C; subst. split; [constructor|auto].
    - assert (X := cases_nonneg _ _ _ _ H). split; [lia|]. intros F. inversion F; subst. discriminate.
    - inversion C as [|l' m M|x' l' m NE' M]; subst.
      + assert (X := cases_nonneg _ _ _ _ M). split; [lia|]. intros F. inversion F; subst. discriminate.
      + rewrite (IH fn M). split; [constructor; [destruct x as [[] []]; try reflexivity; congruence|assumption]|]. intros F. inversion F; assumption. }
  destruct (Z.eq_dec (2 * tp + fp + fn) 0) as [E|E].
  - rewrite (Z E). split; [lra|]. split; [lra|]. intros [_ H]. apply HIT in H. lia.
  - rewrite (N E). assert (P : 0 < inject_Z (2 * tp + fp + fn)) by (apply (inj_lt 0); lia). split; [split|].
    + apply div_nonneg; [exact P|]. apply (inj_le 0). lia.
    + apply Qle_shift_div_r; [exact P|]. rewrite Qmult_1_l. apply inj_le. lia.
    + rewrite <- HIT, <- AGREE. split.
      * intros H. assert (X : inject_Z (2 * tp) == inject_Z (2 * tp + fp + fn)). { setoid_replace (inject_Z (2 * tp)) with (inject_Z (2 * tp) / inject_Z (2 * tp + fp + fn) * inject_Z (2 * tp + fp + fn)) by (field; lra). rewrite H. lra. } apply (proj1 (inject_Z_injective _ _)) in X. lia.
      * intros [[-> ->] H]. rewrite !Z.add_0_r in *. field. lra.
Qed.
Lemma f1_harmonic ps tp fp fn : cases true true ps tp -> cases false true ps fp -> cases true false ps fn -> (0 < tp)%Z ->
  let precision := inject_Z tp / inject_Z (tp + fp) in let recall := inject_Z tp / inject_Z (tp + fn) in
  sklearn_f1 ps == 2 * precision * recall / (precision + recall).
Proof.
  intros A B C H precision recall. destruct (f1_counts ps tp fp fn A B C) as [_ N]. assert (PB := cases_nonneg _ _ _ _ B). assert (PC := cases_nonneg _ _ _ _ C). rewrite N by lia. subst precision recall.
  assert (T := inj_lt 0 tp H). assert (F := inj_le 0 fp PB). assert (G := inj_le 0 fn PC). rewrite !inject_Z_plus, inject_Z_mult. change (inject_Z 2) with 2. change (inject_Z 0) with 0 in *. set (t := inject_Z tp) in *. set (f := inject_Z fp) in *. set (g := inject_Z fn) in *. clearbody t f g.
  assert (NZ : ~ t * (t + g) + t * (t + f) == 0) by nra. field. repeat split; try lra; exact NZ.
Qed.
Lemma f1_swap ps : sklearn_f1 (map (fun p => (snd p, fst p)) ps) == sklearn_f1 ps.
Proof.
  assert (SW : forall a b n l, cases a b l n -> cases b a (map (fun p => (snd p, fst p)) l) n). { induction 1 as [|l n H IH|x l n NE H IH]; cbn [map]; constructor; try assumption. intros E. apply NE. destruct x. cbn in E. congruence. }
  destruct (cases_ex true true ps) as [tp A], (cases_ex false true ps) as [fp B], (cases_ex true false ps) as [fn C]. destruct (f1_counts ps tp fp fn A B C) as [Z N]. destruct (f1_counts _ tp fn fp (SW _ _ _ _ A) (SW _ _ _ _ C) (SW _ _ _ _ B)) as [Z' N'].
  destruct (Z.eq_dec (2 * tp + fp + fn) 0) as [E|E]; [rewrite Z, Z' by lia; reflexivity|]. rewrite N, N' by lia. replace (2 * tp + fn + fp)%Z with (2 * tp + fp + fn)%Z by lia. reflexivity.
Qed.

Lemma on_iff x : is_on x = true <-> on x.
Proof. apply Qle_bool_iff. Qed.
Lemma on_bools x y : is_on x = is_on y <-> (on x <-> on y).
Proof. rewrite <- !on_iff. destruct (is_on x), (is_on y); intuition congruence. Qed.
Lemma agree_states gt : forall pred, length gt = length pred -> (Forall (fun p => is_on (fst p) = is_on (snd p)) (combine gt pred) <-> same_states gt pred).
Proof.
  unfold same_states. induction gt as [|x gt IH]; intros [|y pred] L; cbn in *; try discriminate; [split; constructor|]. injection L as L. split; intros F; inversion_clear F; constructor; try (apply on_bools; assumption); apply IH; assumption.
Qed.
Lemma some_on gt : forall pred, length gt = length pred -> Forall (fun p => is_on (fst p) = is_on (snd p)) (combine gt pred) -> (In (true, true) (map (fun p => (is_on (fst p), is_on (snd p))) (combine gt pred)) <-> Exists on gt).
Proof.
  induction gt as [|x gt IH]; intros [|y pred] L F; cbn in *; try discriminate; [split; [intros []|intros X; inversion X]|]. injection L as L. inversion_clear F as [|p q P F']. rewrite (IH pred L F'), Exists_cons, <- on_iff. cbn in P. rewrite <- P. split; (intros [X|X]; [left|right; exact X]); congruence.
Qed.
Lemma f1score_thm gt pred f : f1score gt pred = Ok f -> 0 <= f <= 1 /\ (f == 1 <-> same_states gt pred /\ Exists on gt) /\ exists f', f1score pred gt = Ok f' /\ f' == f.
Proof.
  unfold f1score. destruct (sklearn_pairs gt pred) as [ps|] eqn:E; cbn [bind]; [|discriminate]. intros H. apply Ok_inj in H. subst f. destruct (sklearn_ok _ _ _ E) as (L & NE & EP & _).
  destruct (f1_bounds (map (fun p => (is_on (fst p), is_on (snd p))) ps)) as [B O]. split; [exact B|]. split.
  - rewrite O, Forall_map. cbn [fst snd]. subst ps. rewrite <- (agree_states gt pred L). split; intros [F I]; (split; [exact F|apply (some_on gt pred L F); exact I]).
  - rewrite (sklearn_swap _ _ _ E). cbn [bind]. eexists. split; [reflexivity|]. rewrite map_map. cbn [fst snd]. rewrite <- (f1_swap (map (fun p => (is_on (fst p), is_on (snd p))) ps)), map_map. reflexivity.
Qed.

(** relative error, r2, nde, nep *)
Lemma numpy_same gt pred : length gt = length pred -> numpy_pairs gt pred = Ok (combine gt pred).
Proof. intros E. unfold numpy_pairs. rewrite E, Nat.eqb_refl. reflexivity. Qed.
Lemma num_mean_fin (l : list Q) : l <> [] -> num_mean (map Fin l) = Fin (qsum l / qlen (map Fin l)).
Proof.
  intros H. unfold num_mean.
  assert (A : existsb (fun x => match x with NaN => true | _ => false end) (map Fin l) = false) by (clear; induction l; cbn; auto).
  assert (B : existsb (fun x => match x with Inf _ => true | _ => false end) (map Fin l) = false) by (clear; induction l; cbn; auto).
  assert (C : flat_map (fun x => match x with Fin q => [q] | _ => [] end) (map Fin l) = l) by (clear; induction l as [|x l IH]; [reflexivity|cbn; f_equal; exact IH]).
  rewrite A, B, C. assert (P : 0 < qlen (map Fin l)) by (apply qlen_pos; destruct l; [congruence|discriminate]). unfold divide. destruct (Qeq_bool (qlen (map Fin l)) 0) eqn:E; [|reflexivity]. apply Qeq_bool_eq in E. lra.
Qed.
Lemma divide_fin q d : ~ d == 0 -> divide (Some q) d = Fin (q / d).
Proof. intros H. unfold divide. destruct (Qeq_bool d 0) eqn:E; [apply Qeq_bool_eq in E; contradiction|reflexivity]. Qed.
Lemma combine_nonempty (gt pred : list Q) : length gt = length pred -> gt <> [] -> combine gt pred <> [].
Proof. destruct gt, pred; cbn; congruence. Qed.
Lemma relative_thm gt pred : length gt = length pred -> gt <> [] -> Forall (fun p => -(1) < p) pred ->
  exists e, relative_error gt pred = Ok (Fin e) /\ 0 <= e /\ (e == 0 <-> same gt pred).
Proof.
  intros L NE F. unfold relative_error. rewrite (numpy_same gt pred L). cbn [bind].
  assert (FC : Forall (fun p => 0 < 1 + snd p) (combine gt pred)). { rewrite Forall_forall in *. intros [x y] H. apply in_combine_r in H. apply F in H. cbn. lra. }
  assert (ND := combine_nonempty gt pred L NE). assert (CS := combine_same gt pred L). set (ps := combine gt pred) in *. clearbody ps.
  assert (E : map (fun p => divide (Some (Qabs (fst p - snd p))) (1 + snd p)) ps = map Fin (map (fun p => Qabs (fst p - snd p) / (1 + snd p)) ps)). { rewrite map_map. apply map_ext_in. intros p Hp. apply divide_fin. rewrite Forall_forall in FC. assert (X := FC p Hp). lra. }
  rewrite E. rewrite num_mean_fin by (destruct ps; [congruence|discriminate]). eexists. split; [reflexivity|].
  assert (P : 0 < qlen (map Fin (map (fun p => Qabs (fst p - snd p) / (1 + snd p)) ps))) by (apply qlen_pos; destruct ps; [congruence|discriminate]).
  rewrite Forall_forall in FC. assert (NN : forall p, In p ps -> 0 <= Qabs (fst p - snd p) / (1 + snd p)) by (intros p Hp; apply div_nonneg; [apply FC, Hp|apply Qabs_nonneg]). split; [apply div_nonneg; [exact P|apply qsum_nonneg, NN]|].
  rewrite (div_zero _ _ P), (qsum_zero _ _ NN), <- CS, !Forall_forall. split; intros G x Hx; specialize (G x Hx).
  - apply abs_zero. apply (div_zero _ _ (FC x Hx)). exact G.
  - apply (div_zero _ _ (FC x Hx)). apply abs_zero. exact G.
Qed.

Lemma squares_zero gt pred : length gt = length pred -> 0 <= qsum (map (fun p => sq (fst p - snd p)) (combine gt pred)) /\ (qsum (map (fun p => sq (fst p - snd p)) (combine gt pred)) == 0 <-> same gt pred).
Proof.
  intros L. assert (NN : forall p : Q * Q, In p (combine gt pred) -> 0 <= sq (fst p - snd p)) by (intros; apply sq_nonneg). split; [apply qsum_nonneg, NN|]. rewrite (qsum_zero _ _ NN), <- (combine_same gt pred L), !Forall_forall. split; intros G x Hx; apply sq_zero, G, Hx.
Qed.
Lemma abs_sum_zero gt pred : length gt = length pred -> 0 <= qsum (map (fun p => Qabs (fst p - snd p)) (combine gt pred)) /\ (qsum (map (fun p => Qabs (fst p - snd p)) (combine gt pred)) == 0 <-> same gt pred).
Proof.
  intros L. assert (NN : forall p : Q * Q, In p (combine gt pred) -> 0 <= Qabs (fst p - snd p)) by (intros; apply Qabs_nonneg). split; [apply qsum_nonneg, NN|]. rewrite (qsum_zero _ _ NN), <- (combine_same gt pred L), !Forall_forall. split; intros G x Hx; apply abs_zero, G, Hx.
Qed.
Lemma r2_thm gt pred : length gt = length pred -> (2 <= length gt)%nat -> exists r, r2score gt pred = Ok (Fin r) /\ r <= 1 /\ (r == 1 <-> same gt pred).
Proof.
  intros L N. unfold r2score, sklearn_pairs. rewrite L, Nat.eqb_refl. cbn [negb]. destruct gt as [|g0 gt0]; [cbn in N; lia|]. set (gt := g0 :: gt0) in *. cbn [bind].
  assert (LC : Nat.ltb (length (combine gt pred)) 2 = false) by (apply Nat.ltb_ge; rewrite combine_length; lia). rewrite LC. eexists. split; [reflexivity|].
  destruct (squares_zero gt pred L) as [SN SZ]. set (num := qsum (map (fun p => sq (fst p - snd p)) (combine gt pred))) in *. set (m := qsum (map fst (combine gt pred)) / qlen (combine gt pred)). 
  assert (DN := qsum_nonneg (fun p => sq (fst p - m)) (combine gt pred) (fun p _ => sq_nonneg _)). set (den := qsum (map (fun p => sq (fst p - m)) (combine gt pred))) in *. rewrite <- SZ. clearbody num den. clear - SN DN.
  destruct (Qeq_bool den 0) eqn:E; [apply Qeq_bool_eq in E|apply Qeq_bool_neq in E].
  - destruct (Qeq_bool num 0) eqn:E2; [apply Qeq_bool_eq in E2; split; [lra|split; [auto|intros; lra]]|apply Qeq_bool_neq in E2]. split; [lra|]. split; [intros X; lra|intros; contradiction].
  - assert (P : 0 < den) by lra. assert (X := div_nonneg num den P SN). split; [lra|]. rewrite <- (div_zero num den P). split; lra.
Qed.
Lemma gt_squares gt : 0 <= qsum (map sq gt) /\ (qsum (map sq gt) == 0 <-> Forall (fun x => x == 0) gt).
Proof.
  assert (NN : forall x, In x gt -> 0 <= sq x) by (intros; apply sq_nonneg). split; [apply qsum_nonneg, NN|]. rewrite (qsum_zero sq gt NN), !Forall_forall. split; intros G x Hx; specialize (G x Hx); unfold sq in *; [destruct (Qmult_integral _ _ G); assumption|rewrite G; lra].
Qed.
Lemma root_zero q : 0 <= q -> (0 <= sqrt (Q2R q))%R /\ (sqrt (Q2R q) = 0%R <-> q == 0).
Proof.
  intros N. assert (NR := Qle_Rle _ _ N). rewrite RMicromega.Q2R_0 in NR. split; [apply sqrt_pos|]. split.
  - intros H. apply sqrt_eq_0 in H; [|exact NR]. apply eqR_Qeq. rewrite H. symmetry. apply RMicromega.Q2R_0.
  - intros H. rewrite (Qeq_eqR _ _ H), RMicromega.Q2R_0. apply sqrt_0.
Qed.
Lemma num_sqrt_fin q : 0 <= q -> num_sqrt (Fin q) = RVal (sqrt (Q2R q)).
Proof. intros H. cbn. apply Qle_bool_iff in H. rewrite H. reflexivity. Qed.
Lemma nde_thm gt pred : length gt = length pred ->
  (~ Forall (fun x => x == 0) gt -> exists r, nde gt pred = Ok (RVal r) /\ (0 <= r)%R /\ (r = 0%R <-> same gt pred)) /\
  (Forall (fun x => x == 0) gt -> (same gt pred -> nde gt pred = Ok RNaN) /\ (~ same gt pred -> nde gt pred = Ok RInf)).
Proof.
  intros L. destruct (squares_zero gt pred L) as [SN SZ]. destruct (gt_squares gt) as [GN GZ]. unfold nde, nde_square. rewrite (numpy_same gt pred L). cbn [bind].
  set (num := qsum (map (fun p => sq (fst p - snd p)) (combine gt pred))) in *. set (den := qsum (map sq gt)) in *. rewrite <- SZ, <- GZ. clearbody num den. split.
  - intros H. assert (P : 0 < den) by lra. rewrite divide_fin by exact H. assert (X := div_nonneg num den P SN). rewrite num_sqrt_fin by exact X. eexists. split; [reflexivity|]. destruct (root_zero _ X) as [A B]. split; [exact A|]. rewrite B, (div_zero _ _ P). exact SZ.
  - intros H. unfold divide. destruct (Qeq_bool den 0) eqn:E; [|apply Qeq_bool_neq in E; contradiction]. split; intros HN.
    + destruct (Qeq_bool num 0) eqn:E2; [reflexivity|]. apply Qeq_bool_neq in E2. contradiction.
    + destruct (Qeq_bool num 0) eqn:E2; [apply Qeq_bool_eq in E2; contradiction|]. assert (X : Qle_bool 0 num = true) by (apply Qle_bool_iff; exact SN). rewrite X. reflexivity.
Qed.
Lemma nep_thm gt pred : length gt = length pred -> 0 < qsum gt -> exists e, nep gt pred = Ok (Fin e) /\ 0 <= e /\ (e == 0 <-> same gt pred).
Proof.
  intros L P. destruct (abs_sum_zero gt pred L) as [SN SZ]. unfold nep. rewrite (numpy_same gt pred L). cbn [bind]. rewrite divide_fin by lra. eexists. split; [reflexivity|]. split; [apply div_nonneg; assumption|]. rewrite (div_zero _ _ P). exact SZ.
Qed.
