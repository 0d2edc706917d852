(** Proofs for C88. *)
From Coq Require Import Reals List Permutation Lra Lia.
From Verif Require Import Base RoundModel RoundSpec.
Import ListNotations.
Open Scope R_scope.

Lemma abs_between a b : Rabs a <= b <-> - b <= a <= b.
Proof.
  split; intros H.
  - pose proof (Rle_abs a); pose proof (Rle_abs (- a)) as K; rewrite Rabs_Ropp in K; lra.
  - apply Rabs_le; exact H.
Qed.
Lemma same_length (A B : Type) (P : A -> B -> Prop) l l' : Forall2 P l l' -> length l = length l'.
Proof. induction 1; cbn; congruence. Qed.

Section Rounding.
Variable u : R.
Variable rnd : R -> R.
Hypothesis Hu : 0 <= u.
Hypothesis Hr : rounds u rnd.

Definition near (k : nat) (m a x : R) : Prop := Rabs (a - x) <= ((1 + u) ^ k - 1) * m /\ Rabs x <= m.

Lemma pow_ge1 k : 1 <= (1 + u) ^ k.
Proof. apply pow_R1_Rle; lra. Qed.
Lemma pow_mono j k : (j <= k)%nat -> (1 + u) ^ j <= (1 + u) ^ k.
Proof. intros L; apply Rle_pow; [lra|exact L]. Qed.

Lemma near_pos k m a x : near k m a x -> 0 <= m.
Proof. intros [_ K]; pose proof (Rabs_pos x); lra. Qed.
Lemma near_weaken j k m a x : (j <= k)%nat -> near j m a x -> near k m a x.
Proof.
  intros L N; pose proof (near_pos _ _ _ _ N) as P; destruct N as [N1 N2]; split; [|exact N2].
  eapply Rle_trans; [exact N1|]; apply Rmult_le_compat_r; [exact P|]; pose proof (pow_mono j k L); lra.
Qed.
Lemma near_refl m x : Rabs x <= m -> near 0 m x x.
Proof.
  intros K; split; [|exact K]. replace (x - x) with 0 by ring. rewrite Rabs_R0; cbn [pow]; lra.
Qed.
Lemma near_abs k m a x : near k m a x -> Rabs a <= (1 + u) ^ k * m.
Proof.
  intros [N1 N2]. replace a with ((a - x) + x) by ring.
  eapply Rle_trans; [apply Rabs_triang|]; lra.
Qed.
Lemma near_round k m a x : near k m a x -> near (S k) m (rnd a) x.
Proof.
  intros N; pose proof (near_abs _ _ _ _ N) as Na; pose proof (Hr a) as E; destruct N as [N1 N2]; split; [|exact N2].
  replace (rnd a - x) with ((rnd a - a) + (a - x)) by ring.
  eapply Rle_trans; [apply Rabs_triang|].
  assert (u * Rabs a <= u * ((1 + u) ^ k * m)) by (apply Rmult_le_compat_l; assumption).
  cbn [pow]; nra.
Qed.
Lemma near_plus k m m' a a' x x' : near k m a x -> near k m' a' x' -> near k (m + m') (a + a') (x + x').
Proof.
  intros [N1 N2] [K1 K2]; split.
  - replace (a + a' - (x + x')) with ((a - x) + (a' - x')) by ring.
    eapply Rle_trans; [apply Rabs_triang|]; lra.
  - eapply Rle_trans; [apply Rabs_triang|]; lra.
Qed.
Lemma near_mult k m a x c : near k m a x -> near k (m * Rabs c) (a * c) (x * c).
Proof.
  intros [N1 N2]; pose proof (Rabs_pos c); split.
  - replace (a * c - x * c) with ((a - x) * c) by ring; rewrite Rabs_mult, <- Rmult_assoc.
    apply Rmult_le_compat_r; assumption.
  - rewrite Rabs_mult; apply Rmult_le_compat_r; assumption.
Qed.
Lemma near_div k m a x c : 0 < c -> near k m a x -> near k (m / c) (a / c) (x / c).
Proof.
  intros P N; unfold Rdiv. pose proof (near_mult k m a x (/ c) N) as K.
  rewrite Rabs_right in K; [exact K|]. left; apply Rinv_0_lt_compat; exact P.
Qed.

(** Capping a positive length. *)
Lemma near_min k a x c : 0 <= a -> 0 <= x -> 0 <= c -> near k x a x -> near k (Rmin x c) (Rmin a c) (Rmin x c).
Proof.
  intros A X C [N _]. pose proof (pow_ge1 k) as G. set (g := (1 + u) ^ k - 1) in *.
  assert (0 <= g) by (unfold g; lra).
  apply abs_between in N.
  assert (0 <= g * x) by (apply Rmult_le_pos; assumption).
  assert (0 <= g * c) by (apply Rmult_le_pos; assumption).
  unfold near; fold g; clearbody g; split.
  - apply abs_between; unfold Rmin; destruct (Rle_dec x c), (Rle_dec a c); repeat match goal with K : ~ _ <= _ |- _ => apply Rnot_le_lt in K end; try lra.
    destruct (Rle_dec g 1) as [G1|G1]; [|apply Rnot_le_lt in G1].
    + assert ((1 - g) * c <= (1 - g) * x) by (apply Rmult_le_compat_l; lra); lra.
    + assert (1 * c <= g * c) by (apply Rmult_le_compat_r; lra); lra.
  - unfold Rmin; destruct (Rle_dec x c); rewrite Rabs_right; lra.
Qed.

(** ** Sums *)
Definition at_positions (l : list R) (ps : list nat) : R := sum_R (map (fun i => nth i l 0) ps).

Lemma sum_app l l' : sum_R (l ++ l') = sum_R l + sum_R l'.
Proof. unfold sum_R; induction l as [|a l IH]; cbn [fold_right List.app]; lra. Qed.
Lemma sum_perm l l' : Permutation l l' -> sum_R l = sum_R l'.
Proof. induction 1; unfold sum_R in *; cbn [fold_right] in *; lra. Qed.
Lemma at_all l : at_positions l (seq 0 (length l)) = sum_R l.
Proof.
  unfold at_positions; f_equal. induction l as [|a l IH]; [reflexivity|].
  cbn [length seq map nth]; f_equal. rewrite <- seq_shift, map_map; exact IH.
Qed.

Lemma near_add_up k M T X o :
  (forall i, near k (nth i M 0) (nth i T 0) (nth i X 0)) ->
  near (k + depth o) (at_positions M (positions o)) (add_up rnd T o) (at_positions X (positions o)).
Proof.
  intros H; induction o as [i|a IHa b IHb]; cbn [depth positions add_up].
  - rewrite Nat.add_0_r; unfold at_positions; cbn. rewrite !Rplus_0_r; apply H.
  - unfold at_positions in *; rewrite !map_app, !sum_app.
    replace (k + S (Nat.max (depth a) (depth b)))%nat with (S (k + Nat.max (depth a) (depth b))) by lia.
    apply near_round, near_plus; (eapply near_weaken; [|eassumption]); lia.
Qed.

Lemma near_nth k M T X : Forall2 (fun mx a => near k (fst mx) a (snd mx)) (combine M X) T -> length M = length X ->
  forall i, near k (nth i M 0) (nth i T 0) (nth i X 0).
Proof.
  revert X T; induction M as [|m M IH]; intros [|x X] T F L i; try discriminate; cbn [combine] in F.
  - inversion F; subst. destruct i; cbn; (eapply near_weaken; [|apply near_refl; rewrite Rabs_R0; lra]); lia.
  - inversion F as [|? a ? T' N F']; subst. destruct i as [|i]; cbn [nth]; [exact N|].
    apply IH; [exact F'|injection L; auto].
Qed.

Lemma near_total k M T X o : length M = length X -> Forall2 (fun mx a => near k (fst mx) a (snd mx)) (combine M X) T ->
  each_once (length X) o -> near (k + depth o) (sum_R M) (total rnd T o) (sum_R X).
Proof.
  intros L F E.
  assert (LT : length T = length X).
  { pose proof (same_length _ _ _ _ _ F) as G. rewrite combine_length, L, Nat.min_id in G; congruence. }
  destruct T as [|t T].
  - cbn in LT. destruct X; [|discriminate]. destruct M; [|discriminate]. cbn.
    apply (near_weaken 0); [lia|]. apply near_refl; rewrite Rabs_R0; lra.
  - destruct E as [E|E]; [rewrite <- LT in E; discriminate|]. cbn [total].
    pose proof (near_add_up k M (t :: T) X o (near_nth k M (t :: T) X F L)) as N.
    unfold at_positions in N.
    rewrite (sum_perm _ _ (Permutation_map (fun i => nth i M 0) E)), (sum_perm _ _ (Permutation_map (fun i => nth i X 0) E)) in N.
    fold (at_positions X (seq 0 (length X))) in N. rewrite <- L in N at 1. fold (at_positions M (seq 0 (length M))) in N.
    rewrite !at_all in N; exact N.
Qed.

(** ** A chunk *)
Hypothesis Hu1 : u <= 1.

Lemma round_nonneg x : 0 <= x -> 0 <= rnd x.
Proof.
  intros P; pose proof (Hr x) as K. rewrite (Rabs_right x) in K by lra. apply abs_between in K.
  assert (u * x <= 1 * x) by (apply Rmult_le_compat_r; assumption); lra.
Qed.

Lemma near_seconds d : (0 <= d)%Z -> near 2 (IZR d / 1000000000) (seconds rnd d) (IZR d / 1000000000).
Proof.
  intros P; apply IZR_le in P. unfold seconds. apply near_round, near_div; [lra|]. apply near_round.
  apply near_refl. rewrite Rabs_right; lra.
Qed.
Lemma seconds_nonneg d : (0 <= d)%Z -> 0 <= seconds rnd d.
Proof.
  intros P; apply IZR_le in P. unfold seconds, Rdiv. apply round_nonneg, Rmult_le_pos; [apply round_nonneg; exact P|].
  left; apply Rinv_0_lt_compat; lra.
Qed.

Fixpoint ahead (s : list (Z * R)) : Prop :=
  match s with
  | x :: ((y :: _) as r) => (fst x <= fst y)%Z /\ ahead r
  | _ => True
  end.
Lemma readings_there s : readings s = there s.
Proof. induction s as [|[t [v|]] r IH]; cbn; [reflexivity|rewrite IH; reflexivity|exact IH]. Qed.
Lemma forward_tail x s : forward (x :: s) -> forward s.
Proof. destruct s; cbn; tauto. Qed.
Lemma forward_head x s : forward (x :: s) -> Forall (fun y => fst x <= fst y)%Z (there s).
Proof.
  revert x; induction s as [|y r IH]; intros x F; [constructor|]. destruct F as [L F].
  specialize (IH _ F). assert (K : Forall (fun z => fst x <= fst z)%Z (there r)).
  { rewrite Forall_forall in *; intros z I; specialize (IH z I); cbn in *; lia. }
  destruct y as [t [v|]]; cbn in *; [constructor; assumption|exact K].
Qed.
Lemma forward_ahead s : forward s -> ahead (there s).
Proof.
  induction s as [|[t [v|]] r IH]; intros F; [exact I| |].
  - specialize (IH (forward_tail _ _ F)); pose proof (forward_head _ _ F) as K.
    change (there ((t, Some v) :: r)) with ((t, v) :: there r). destruct (there r); [exact I|].
    split; [exact (Forall_inv K)|exact IH].
  - exact (IH (forward_tail _ _ F)).
Qed.

Definition part (msp : R) (p : (Z * R) * (Z * R)) : R :=
  Rmin (IZR (fst (snd p) - fst (fst p)) / 1000000000) msp * snd (fst p).
Definition part_abs (msp : R) (p : (Z * R) * (Z * R)) : R :=
  Rmin (IZR (fst (snd p) - fst (fst p)) / 1000000000) msp * Rabs (snd (fst p)).

Lemma near_products msp s : 0 <= msp -> ahead s ->
  Forall2 (fun mx a => near 3 (fst mx) a (snd mx))
    (combine (map (part_abs msp) (combine s (tl s))) (map (part msp) (combine s (tl s)))) (products rnd s msp).
Proof.
  intros P; induction s as [|[t v] r IH]; intros A; [constructor|].
  destruct r as [|[t' v'] r]; [constructor|].
  destruct A as [L A]. specialize (IH A). cbn [fst] in L.
  cbn [tl combine map products]. constructor; [|exact IH]. unfold part_abs, part; cbn [fst snd].
  assert (D : (0 <= t' - t)%Z) by lia.
  apply near_round, near_mult, near_min; [apply seconds_nonneg; exact D| |exact P|apply near_seconds; exact D].
  apply IZR_le in D. unfold Rdiv; apply Rmult_le_pos; [exact D|left; apply Rinv_0_lt_compat; lra].
Qed.

Lemma there_amounts s : there (amounts s) = map (fun x => (fst x, Rabs (snd x))) (there s).
Proof. induction s as [|[t [v|]] r IH]; [reflexivity|exact (f_equal (cons (t, Rabs v)) IH)|exact IH]. Qed.
Lemma map_tl (A B : Type) (f : A -> B) l : tl (map f l) = map f (tl l).
Proof. destruct l; reflexivity. Qed.
Lemma combine_map (A B : Type) (f : A -> B) l l' : combine (map f l) (map f l') = map (fun p => (f (fst p), f (snd p))) (combine l l').
Proof. revert l'; induction l as [|a l IH]; intros [|b l']; cbn; [reflexivity..|rewrite IH; reflexivity]. Qed.
Lemma exact_amounts msp s : exact_kwh msp (amounts s) = sum_R (map (part_abs msp) (neighbours s)) / 3600000.
Proof.
  unfold exact_kwh, neighbours. rewrite there_amounts, map_tl, combine_map, map_map. reflexivity.
Qed.

Lemma near_power msp s o : 0 <= msp -> forward s -> each_once (length (neighbours s)) o ->
  near (depth o + 4) (exact_kwh msp (amounts s)) (power_energy rnd msp s o) (exact_kwh msp s).
Proof.
  intros P F E. replace (depth o + 4)%nat with (S (3 + depth o)) by lia.
  rewrite exact_amounts; unfold power_energy, exact_kwh. apply near_round, near_div; [lra|].
  rewrite readings_there. apply near_total.
  - rewrite !map_length; reflexivity.
  - apply (near_products msp (there s) P (forward_ahead s F)).
  - rewrite map_length; exact E.
Qed.

(** ** A meter *)
Lemma near_meter msp h chunks o : 0 <= msp -> Forall (chunk_ok h) chunks -> each_once (length chunks) o ->
  near (h + depth o + 4) (exact_meter msp (map (fun c => amounts (fst c)) chunks)) (meter_energy rnd msp chunks o) (exact_meter msp (map fst chunks)).
Proof.
  intros P F E. replace (h + depth o + 4)%nat with ((h + 4) + depth o)%nat by lia.
  unfold exact_meter, meter_energy. rewrite !map_map. apply near_total; [rewrite !map_length; reflexivity| |rewrite map_length; exact E].
  clear E. induction F as [|c chunks (F1 & F2 & F3) F IH]; [constructor|]. cbn [map combine]. constructor; [|exact IH].
  cbn [fst snd]. eapply near_weaken; [|apply near_power; assumption]. lia.
Qed.
End Rounding.

(** ** Readings that are not negative *)
Lemma there_in t v s : In (t, v) (there s) <-> In (t, Some v) s.
Proof.
  unfold there; rewrite in_flat_map; split.
  - intros ([t' [w|]] & I & K); cbn in K; [|contradiction]. destruct K as [K|[]]; injection K as -> ->; exact I.
  - intros I; exists (t, Some v); split; [exact I|left; reflexivity].
Qed.
Lemma amounts_same s : nonnegative s -> amounts s = s.
Proof.
  intros N; unfold amounts. induction s as [|[t [v|]] r IH]; cbn [map fst snd option_map]; [reflexivity| |].
  - rewrite Rabs_right, IH; [reflexivity| |apply Rle_ge; apply (N t); left; reflexivity]. intros t' v' I; apply (N t'); right; exact I.
  - rewrite IH; [reflexivity|]. intros t' v' I; apply (N t'); right; exact I.
Qed.

Lemma bernoulli u n : 0 <= u -> INR n * u <= / 2 -> (1 + u) ^ n - 1 <= 2 * INR n * u.
Proof.
  intros U L.
  assert (K : (1 + u) ^ n * (1 - INR n * u) <= 1).
  { clear L. induction n as [|n IH]; [cbn; lra|]. rewrite S_INR.
    assert (G : 1 <= (1 + u) ^ n) by (apply pow_R1_Rle; lra).
    assert (I : 0 <= INR n) by apply pos_INR. cbn [pow].
    assert (0 <= (1 + u) ^ n * (u * u)) by (apply Rmult_le_pos; [lra|apply Rmult_le_pos; assumption]).
    assert (0 <= INR n * ((1 + u) ^ n * (u * u))) by (apply Rmult_le_pos; assumption).
    nra. }
  assert (G : 1 <= (1 + u) ^ n) by (apply pow_R1_Rle; lra).
  assert (I : 0 <= INR n) by apply pos_INR.
  assert (J : 0 <= INR n * u) by (apply Rmult_le_pos; assumption).
  set (g := (1 + u) ^ n) in *; set (y := INR n * u) in *. replace (2 * INR n * u) with (2 * y) by (unfold y; ring).
  clearbody g y. assert (g <= 2) by nra. nra.
Qed.

Lemma meter_relative u rnd msp h chunks o : 0 <= u <= 1 -> rounds u rnd -> 0 <= msp ->
  Forall (chunk_ok h) chunks -> each_once (length chunks) o -> Forall (fun c => nonnegative (fst c)) chunks ->
  INR (h + depth o + 4) * u <= / 2 ->
  Rabs (meter_energy rnd msp chunks o - exact_meter msp (map fst chunks)) <= 2 * INR (h + depth o + 4) * u * exact_meter msp (map fst chunks).
Proof.
  intros [U U1] R P F E N L. destruct (near_meter u rnd U R U1 msp h chunks o P F E) as [K1 K2].
  assert (A : map (fun c => amounts (fst c)) chunks = map fst chunks).
  { apply map_ext_in; intros c I; apply amounts_same; rewrite Forall_forall in N; exact (N c I). }
  rewrite A in K1, K2. eapply Rle_trans; [exact K1|]. apply Rmult_le_compat_r.
  - pose proof (Rabs_pos (exact_meter msp (map fst chunks))); lra.
  - apply bernoulli; assumption.
Qed.
