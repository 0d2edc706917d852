From Coq Require Import QArith Qabs Reals Qreals Lia Lqa Permutation.
From Verif Require Import Base TopModel TopSpec TopProofs ResampleModel MetricsModel MetricsSpec.
From Verif Require CorrProofs.
Open Scope Q_scope.

Lemma Ok_inj {A} (a b : A) : Ok a = Ok b -> a = b.
Proof. congruence. Qed.
Lemma qsum_cons x l : qsum (x :: l) = x + qsum l.
Proof. reflexivity. Qed.
Lemma qsum_app l l' : qsum (l ++ l') == qsum l + qsum l'.
Proof. induction l as [|x l IH]; [change (qsum []) with 0; cbn [app]; lra|]. cbn [app]. rewrite !qsum_cons, IH. lra. Qed.
Lemma qsum_nonneg {A} (f : A -> Q) l : (forall x, In x l -> 0 <= f x) -> 0 <= qsum (map f l).
Proof. intros H. induction l as [|x l IH]; [cbn; lra|]. cbn [map]. rewrite qsum_cons. assert (X := H x (or_introl eq_refl)). assert (Y := IH (fun y Hy => H y (or_intror Hy))). lra. Qed.
Lemma qsum_zero {A} (f : A -> Q) l : (forall x, In x l -> 0 <= f x) -> (qsum (map f l) == 0 <-> Forall (fun x => f x == 0) l).
Proof.
  intros H. induction l as [|x l IH]; [cbn; split; [constructor|reflexivity]|]. cbn [map]. rewrite qsum_cons.
  assert (X := H x (or_introl eq_refl)). assert (Y := qsum_nonneg f l (fun y Hy => H y (or_intror Hy))). destruct (IH (fun y Hy => H y (or_intror Hy))) as [I J]. split.
  - intros E. constructor; [lra|]. apply I. lra.
  - intros F. inversion_clear F. rewrite J by assumption. lra.
Qed.
Lemma qsum_ext {A} (f g : A -> Q) l : (forall x, In x l -> f x == g x) -> qsum (map f l) == qsum (map g l).
Proof. intros H. induction l as [|x l IH]; [reflexivity|]. cbn [map]. rewrite !qsum_cons, (H x (or_introl eq_refl)), IH; [reflexivity|]. intros y Hy. apply H. right. exact Hy. Qed.
Lemma qlen_cons {A} (x : A) l : qlen (x :: l) == 1 + qlen l.
Proof. unfold qlen. cbn [length]. rewrite Nat2Z.inj_succ. unfold Z.succ. rewrite inject_Z_plus. change (inject_Z 1) with 1. lra. Qed.
Lemma qlen_nonneg {A} (l : list A) : 0 <= qlen l.
Proof. unfold qlen. change 0 with (inject_Z 0). rewrite <- Zle_Qle. lia. Qed.
Lemma qlen_pos {A} (l : list A) : l <> [] -> 0 < qlen l.
Proof. destruct l as [|x l]; [congruence|]. intros _. rewrite qlen_cons. assert (X := qlen_nonneg l). lra. Qed.
Lemma qlen_zero {A} (l : list A) : qlen l == 0 <-> l = [].
Proof. split; [|intros ->; reflexivity]. intros E. destruct l; [reflexivity|]. exfalso. assert (X := qlen_pos (a :: l) ltac:(discriminate)). lra. Qed.
Lemma sq_nonneg x : 0 <= sq x.
Proof. unfold sq. nra. Qed.
Lemma sq_zero x y : sq (x - y) == 0 <-> x == y.
Proof. unfold sq. split; [|intros ->; lra]. intros E. destruct (Qmult_integral _ _ E); lra. Qed.
Lemma abs_zero x y : Qabs (x - y) == 0 <-> x == y.
Proof.
  split; [|intros E; rewrite E; setoid_replace (y - y) with 0 by lra; reflexivity]. intros E. destruct (Qlt_le_dec (x - y) 0) as [L|L]; [rewrite Qabs_neg in E by lra|rewrite Qabs_pos in E by lra]; lra.
Qed.
Lemma div_zero a b : 0 < b -> (a / b == 0 <-> a == 0).
Proof. intros H. split; intros E; [|rewrite E; field; lra]. setoid_replace a with (a / b * b) by (field; lra). rewrite E. lra. Qed.
Lemma div_nonneg a b : 0 < b -> 0 <= a -> 0 <= a / b.
Proof. intros H HA. apply Qle_shift_div_l; lra. Qed.

Lemma combine_same gt : forall pred, length gt = length pred -> (Forall (fun p => fst p == snd p) (combine gt pred) <-> same gt pred).
Proof.
  induction gt as [|g gt IH]; intros [|p pred] E; cbn in *; try discriminate; [split; constructor|]. injection E as E. unfold same in *. split; intros H; inversion_clear H; constructor; try assumption; apply IH; assumption.
Qed.
Lemma sklearn_ok gt pred ps : sklearn_pairs gt pred = Ok ps -> length gt = length pred /\ gt <> [] /\ ps = combine gt pred /\ ps <> [].
Proof.
  unfold sklearn_pairs. destruct (Nat.eqb_spec (length gt) (length pred)) as [E|E]; cbn; [|discriminate]. destruct gt as [|g gt], pred as [|p pred]; cbn in *; intros [= <-] || discriminate; try discriminate. repeat split; try discriminate. exact E.
Qed.
Lemma sklearn_err gt pred : (exists ps, sklearn_pairs gt pred = Ok ps) \/ (sklearn_pairs gt pred = Err ValueError /\ (length gt <> length pred \/ gt = [])).
Proof.
  unfold sklearn_pairs. destruct (Nat.eqb_spec (length gt) (length pred)) as [E|E]; cbn; [|right; auto]. destruct gt; [right; auto|left; eauto].
Qed.
Lemma sklearn_swap gt pred ps : sklearn_pairs gt pred = Ok ps -> sklearn_pairs pred gt = Ok (map (fun p => (snd p, fst p)) ps).
Proof.
  intros H. destruct (sklearn_ok _ _ _ H) as (E & N & -> & _). unfold sklearn_pairs. rewrite E, Nat.eqb_refl. cbn. destruct gt as [|g gt], pred as [|p pred]; cbn in *; try congruence; try discriminate. f_equal. f_equal. injection E as E. clear - E. revert pred E. induction gt as [|g gt IH]; intros [|p pred] E; cbn in *; try discriminate; [reflexivity|]. f_equal. apply IH. congruence.
Qed.

Lemma mae_thm gt pred : (forall e, mae gt pred = Ok e -> 0 <= e /\ (e == 0 <-> same gt pred) /\ exists e', mae pred gt = Ok e' /\ e' == e) /\
  ((exists e, mae gt pred = Ok e) <-> length gt = length pred /\ gt <> []).
Proof.
  split.
  - intros e H. unfold mae in H. destruct (sklearn_pairs gt pred) as [ps|] eqn:E; cbn [bind] in H; [|discriminate]. apply Ok_inj in H. subst e. destruct (sklearn_ok _ _ _ E) as (L & N & EP & NP).
    assert (P := qlen_pos ps NP). assert (NN : forall p : Q * Q, In p ps -> 0 <= Qabs (fst p - snd p)) by (intros; apply Qabs_nonneg). split; [|split].
    + apply div_nonneg; [exact P|apply qsum_nonneg, NN].
    + rewrite (div_zero _ _ P), (qsum_zero _ _ NN), <- (combine_same gt pred L), <- EP. rewrite !Forall_forall. split; intros F x Hx; apply abs_zero, F, Hx.
    + unfold mae. rewrite (sklearn_swap _ _ _ E). cbn [bind]. eexists. split; [reflexivity|]. unfold qlen. rewrite map_length, map_map. cbn [fst snd]. rewrite (qsum_ext _ (fun p => Qabs (fst p - snd p))); [reflexivity|]. intros p _. rewrite <- (Qabs_opp (snd p - fst p)). setoid_replace (- (snd p - fst p)) with (fst p - snd p) by lra. reflexivity.
  - unfold mae. destruct (sklearn_err gt pred) as [[ps E]|[E F]]; rewrite E; cbn [bind].
    + destruct (sklearn_ok _ _ _ E) as (L & N & _). split; eauto.
    + split; [intros [e H]; discriminate|]. intros [A B]. destruct F; contradiction.
Qed.

Lemma mse_thm gt pred m : mse gt pred = Ok m -> 0 <= m /\ (m == 0 <-> same gt pred).
Proof.
  unfold mse. destruct (sklearn_pairs gt pred) as [ps|] eqn:E; cbn [bind]; [|discriminate]. intros H1. apply Ok_inj in H1. subst m. destruct (sklearn_ok _ _ _ E) as (L & N & EP & NP).
  assert (P := qlen_pos ps NP). assert (NN : forall p : Q * Q, In p ps -> 0 <= sq (fst p - snd p)) by (intros; apply sq_nonneg). split.
  - apply div_nonneg; [exact P|apply qsum_nonneg, NN].
  - rewrite (div_zero _ _ P), (qsum_zero _ _ NN), <- (combine_same gt pred L), <- EP. rewrite !Forall_forall. split; intros F x Hx; apply sq_zero, F, Hx.
Qed.
Lemma q_cs_step S A B a b : 0 <= A -> 0 <= B -> S * S <= A * B -> (a * b + S) * (a * b + S) <= (a * a + A) * (b * b + B).
Proof.
  intros HA HB H. apply Rle_Qle. apply Qle_Rle in HA, HB, H. rewrite RMicromega.Q2R_0 in HA, HB. repeat rewrite ?Q2R_mult, ?Q2R_plus in *. apply CorrProofs.cs_step; assumption.
Qed.
Lemma square_of_sum {A} (f : A -> Q) l : qsum (map f l) * qsum (map f l) <= qlen l * qsum (map (fun x => sq (f x)) l).
Proof.
  induction l as [|x l IH]; [cbn; lra|]. cbn [map]. rewrite !qsum_cons. assert (P := qlen_nonneg l). assert (N := qsum_nonneg (fun x => sq (f x)) l (fun x _ => sq_nonneg (f x))).
  assert (X := q_cs_step (qsum (map f l)) (qlen l) (qsum (map (fun x => sq (f x)) l)) 1 (f x) P N IH). rewrite qlen_cons. unfold sq in *. setoid_replace (f x + qsum (map f l)) with (1 * f x + qsum (map f l)) by lra. apply (Qle_trans _ _ _ X). lra.
Qed.
Lemma mae_mse gt pred e m : mae gt pred = Ok e -> mse gt pred = Ok m -> e * e <= m.
Proof.
  unfold mae, mse. destruct (sklearn_pairs gt pred) as [ps|] eqn:E; cbn [bind]; [|discriminate]. intros H1 H2. apply Ok_inj in H1, H2. subst e m. destruct (sklearn_ok _ _ _ E) as (L & N & EP & NP). assert (P := qlen_pos ps NP).
  assert (X := square_of_sum (fun p => Qabs (fst p - snd p)) ps).
  assert (Y : qsum (map (fun p => sq (Qabs (fst p - snd p))) ps) == qsum (map (fun p => sq (fst p - snd p)) ps)). { apply qsum_ext. intros p _. unfold sq. destruct (Qlt_le_dec (fst p - snd p) 0) as [Z|Z]; [rewrite Qabs_neg by lra|rewrite Qabs_pos by lra]; lra. }
  rewrite Y in X. apply Qle_shift_div_l; [exact P|]. set (S := qsum (map (fun p => Qabs (fst p - snd p)) ps)) in *. set (n := qlen ps) in *.
  setoid_replace (S / n * (S / n) * n) with (S * S / n) by (field; lra). apply Qle_shift_div_r; [exact P|]. apply (Qle_trans _ _ _ X). setoid_replace (qsum (map (fun p => sq (fst p - snd p)) ps) * n) with (n * qsum (map (fun p => sq (fst p - snd p)) ps)) by lra. apply Qle_refl.
Qed.
Lemma rmse_thm gt pred r : rmse gt pred = Ok r -> (0 <= r)%R /\ (r = 0%R <-> same gt pred) /\ exists e, mae gt pred = Ok e /\ (Q2R e <= r)%R.
Proof.
  unfold rmse. destruct (mse gt pred) as [m|] eqn:E; cbn [bind]; [|discriminate]. intros H1. apply Ok_inj in H1. subst r. destruct (mse_thm _ _ _ E) as [N Z]. assert (NR := Qle_Rle _ _ N). rewrite RMicromega.Q2R_0 in NR. split; [apply sqrt_pos|]. split.
  - rewrite <- Z. split.
    + intros H. apply sqrt_eq_0 in H; [|exact NR]. apply eqR_Qeq. rewrite H. symmetry. apply RMicromega.Q2R_0.
    + intros H. rewrite (Qeq_eqR _ _ H), RMicromega.Q2R_0. apply sqrt_0.
  - destruct (mae gt pred) as [e|] eqn:EM.
    + exists e. split; [reflexivity|]. assert (X := Qle_Rle _ _ (mae_mse _ _ _ _ EM E)). rewrite Q2R_mult in X. destruct (proj1 (mae_thm gt pred) e EM) as [EN _]. apply Qle_Rle in EN. rewrite RMicromega.Q2R_0 in EN. rewrite <- (sqrt_square (Q2R e) EN). apply sqrt_le_1_alt. exact X.
    + unfold mae in EM. unfold mse in E. destruct (sklearn_pairs gt pred); discriminate.
Qed.
