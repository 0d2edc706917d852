From Coq Require Import QArith Qabs Reals Qreals Lia Lqa Permutation Sorted.
From Verif Require Import Base TopModel TopSpec TopProofs ResampleModel MetricsModel MetricsSpec MetricsProofs MetricsProofs2.
Open Scope Q_scope.

Lemma pos_nonzero d : 0 < d -> ~ d == 0.
Proof. intros H. lra. Qed.

(** the loops over chunks *)
Lemma both_app l l' : both (l ++ l') = both l ++ both l'.
Proof. apply flat_map_app. Qed.
Lemma valid_app l l' : valid_of (l ++ l') = valid_of l ++ valid_of l'.
Proof. apply flat_map_app. Qed.
Lemma rms_acc cs : forall s n, fst (rms_loop cs s n) == s + qsum (map (fun p => sq (fst p - snd p)) (both (concat cs))) /\ snd (rms_loop cs s n) = (n + length (both (concat cs)))%nat.
Proof.
  induction cs as [|c cs IH]; intros s n; cbn [rms_loop concat].
  - cbn [both flat_map map length fst snd]. change (qsum []) with 0. rewrite Nat.add_0_r. split; [lra|reflexivity].
  - rewrite both_app, map_app, app_length, qsum_app. destruct (IH (s + qsum (map (fun p => sq (fst p - snd p)) (both c))) (n + length (both c))%nat) as [A B]. rewrite A, B. split; [lra|]. rewrite Nat.add_assoc. reflexivity.
Qed.
Lemma mne_acc cs : forall d p, fst (mne_loop cs d p) == d + qsum (map (fun p => Qabs (fst p - snd p)) (both (concat cs))) /\ snd (mne_loop cs d p) == p + qsum (valid_of (map snd (concat cs))).
Proof.
  induction cs as [|c cs IH]; intros d p; cbn [mne_loop concat].
  - cbn [both flat_map map fst snd valid_of]. change (qsum []) with 0. split; lra.
  - rewrite both_app, !map_app, valid_app, !qsum_app. destruct (IH (d + qsum (map (fun p => Qabs (fst p - snd p)) (both c))) (p + qsum (valid_of (map snd c)))) as [A B]. rewrite A, B. split; symmetry; apply Qplus_assoc.
Qed.
Lemma divide_eq a a' b b' : a == a' -> b == b' -> num_eq (divide (Some a) b) (divide (Some a') b').
Proof.
  intros A B. unfold divide. destruct (Qeq_bool b 0) eqn:E; [apply Qeq_bool_eq in E|apply Qeq_bool_neq in E]; (destruct (Qeq_bool b' 0) eqn:E'; [apply Qeq_bool_eq in E'|apply Qeq_bool_neq in E']); try (exfalso; lra).
  - destruct (Qeq_bool a 0) eqn:F; [apply Qeq_bool_eq in F|apply Qeq_bool_neq in F]; (destruct (Qeq_bool a' 0) eqn:F'; [apply Qeq_bool_eq in F'|apply Qeq_bool_neq in F']); try (exfalso; lra); cbn; [exact I|]. f_equal. rewrite A. reflexivity.
  - cbn. rewrite A, B. reflexivity.
Qed.
Lemma sqrt_eq x y : num_eq x y -> num_sqrt x = num_sqrt y.
Proof. destruct x, y; cbn; intros H; try contradiction; try reflexivity; [rewrite H; destruct (Qle_bool 0 q0); [|reflexivity]; rewrite (Qeq_eqR _ _ H); reflexivity|subst; reflexivity]. Qed.
Lemma rms_value cs : cs <> [] -> exists x, rms_square cs = Ok x /\ num_eq x (divide (Some (qsum (map (fun p => sq (fst p - snd p)) (both (concat cs))))) (qlen (both (concat cs)))).
Proof.
  intros H. unfold rms_square. destruct cs as [|c cs]; [congruence|]. set (l := c :: cs) in *. destruct (rms_acc l 0 0) as [A B]. destruct (rms_loop l 0 0) as [s n]. cbn [fst snd] in A, B. eexists. split; [reflexivity|]. apply divide_eq; [rewrite A; apply Qplus_0_l|]. rewrite B. reflexivity.
Qed.
Lemma rms_thm cs : cs <> [] ->
  (both (concat cs) <> [] -> exists r, rms_error cs = Ok (RVal r) /\ (0 <= r)%R /\ (r * r = Q2R (mean_square (both (concat cs))))%R /\ (r = 0%R <-> Forall (fun p => fst p == snd p) (both (concat cs)))) /\
  (both (concat cs) = [] -> rms_error cs = Ok RNaN).
Proof.
  intros H. destruct (rms_value cs H) as (x & E & V). unfold rms_error. rewrite E. cbn [bind]. rewrite (sqrt_eq _ _ V). split.
  - intros N. assert (P := qlen_pos _ N). rewrite divide_fin by lra. assert (NN : forall p : Q * Q, In p (both (concat cs)) -> 0 <= sq (fst p - snd p)) by (intros; apply sq_nonneg). assert (X : 0 <= mean_square (both (concat cs))) by (apply div_nonneg; [exact P|apply qsum_nonneg, NN]). assert (EQ : num_sqrt (Fin (qsum (map (fun p => sq (fst p - snd p)) (both (concat cs))) / qlen (both (concat cs)))) = RVal (sqrt (Q2R (mean_square (both (concat cs)))))) by exact (num_sqrt_fin _ X). rewrite EQ. eexists. split; [reflexivity|]. destruct (root_zero _ X) as [A B]. split; [exact A|]. split; [apply sqrt_sqrt; apply Qle_Rle in X; rewrite RMicromega.Q2R_0 in X; exact X|]. rewrite B. change (mean_square (both (concat cs))) with (qsum (map (fun p => sq (fst p - snd p)) (both (concat cs))) / qlen (both (concat cs))). rewrite (div_zero _ _ P), (qsum_zero _ _ NN), !Forall_forall. split; intros G y Hy; apply sq_zero, G, Hy.
  - intros N. rewrite N. reflexivity.
Qed.
Lemma rms_chunks cs cs' : cs <> [] -> cs' <> [] -> concat cs = concat cs' -> rms_error cs = rms_error cs'.
Proof.
  intros H H' E. destruct (rms_value cs H) as (x & EX & V), (rms_value cs' H') as (y & EY & W). unfold rms_error. rewrite EX, EY. cbn [bind]. rewrite (sqrt_eq _ _ V), (sqrt_eq _ _ W), E. reflexivity.
Qed.
Lemma mne_value cs : cs <> [] -> exists x, mean_normalized_error cs = Ok x /\ num_eq x (divide (Some (qsum (map (fun p => Qabs (fst p - snd p)) (both (concat cs))))) (qsum (valid_of (map snd (concat cs))))).
Proof.
  intros H. unfold mean_normalized_error. destruct cs as [|c cs]; [congruence|]. set (l := c :: cs) in *. destruct (mne_acc l 0 0) as [A B]. destruct (mne_loop l 0 0) as [s n]. cbn [fst snd] in A, B. eexists. split; [reflexivity|]. apply divide_eq; [rewrite A|rewrite B]; apply Qplus_0_l.
Qed.
Lemma mne_thm cs : cs <> [] -> 0 < qsum (valid_of (map snd (concat cs))) ->
  exists e, mean_normalized_error cs = Ok (Fin e) /\ 0 <= e /\ (e == 0 <-> Forall (fun p => fst p == snd p) (both (concat cs))).
Proof.
  intros H P. destruct (mne_value cs H) as (x & -> & V). rewrite (divide_fin _ _ (pos_nonzero _ P)) in V. destruct x as [|e|]; cbn in V; try contradiction. exists e. split; [reflexivity|]. assert (NN : forall p : Q * Q, In p (both (concat cs)) -> 0 <= Qabs (fst p - snd p)) by (intros; apply Qabs_nonneg). rewrite V. split; [apply div_nonneg; [exact P|apply qsum_nonneg, NN]|]. rewrite (div_zero _ _ P), (qsum_zero _ _ NN), !Forall_forall. split; intros G y Hy; apply abs_zero, G, Hy.
Qed.
Lemma num_eq_sym x y : num_eq x y -> num_eq y x.
Proof. destruct x, y; cbn; auto; intros; symmetry; assumption. Qed.
Lemma num_eq_trans x y z : num_eq x y -> num_eq y z -> num_eq x z.
Proof. destruct x, y, z; cbn; auto; try contradiction; intros H1 H2; [rewrite H1; exact H2|congruence]. Qed.
Lemma mne_chunks cs cs' : cs <> [] -> cs' <> [] -> concat cs = concat cs' -> exists x x', mean_normalized_error cs = Ok x /\ mean_normalized_error cs' = Ok x' /\ num_eq x x'.
Proof.
  intros H H' E. destruct (mne_value cs H) as (x & EX & V), (mne_value cs' H') as (y & EY & W). exists x, y. split; [exact EX|]. split; [exact EY|]. rewrite <- E in W. exact (num_eq_trans _ _ _ V (num_eq_sym _ _ W)).
Qed.

(** the chunked f1 *)
Lemma f1_chunked nan cs : (exists c, In c cs /\ states c <> []) -> exists f, f1_score nan cs = Ok (Fin f) /\ 0 <= f <= 1.
Proof.
  intros (c & Hc & NE). unfold f1_score. set (scores := map (fun c => (sklearn_f1 (states c), qlen (states c))) cs).
  assert (F : forall s, In s scores -> 0 <= fst s <= 1 /\ 0 <= snd s). { intros s Hs. apply in_map_iff in Hs. destruct Hs as (d & <- & _). cbn. split; [apply f1_bounds|apply qlen_nonneg]. }
  assert (P : 0 < qsum (map snd scores)). { assert (NN := qsum_nonneg snd scores (fun s Hs => proj2 (F s Hs))). destruct (Qle_lt_or_eq _ _ NN) as [L|E]; [exact L|]. exfalso. symmetry in E. apply (qsum_zero snd scores (fun s Hs => proj2 (F s Hs))) in E. rewrite Forall_forall in E. assert (X := E _ (in_map (fun c => (sklearn_f1 (states c), qlen (states c))) cs c Hc)). cbn in X. apply qlen_zero in X. contradiction. }
  assert (B : Qle_bool (qsum (map snd scores)) 0 = false). { destruct (Qle_bool (qsum (map snd scores)) 0) eqn:E; [|reflexivity]. apply Qle_bool_iff in E. lra. } rewrite B. eexists. split; [reflexivity|].
  set (n := qsum (map snd scores)) in *. split.
  - apply qsum_nonneg. intros s Hs. destruct (F s Hs) as [[A _] C]. apply Qmult_le_0_compat; [exact A|apply div_nonneg; assumption].
  - assert (LE : forall l, incl l scores -> qsum (map (fun s => fst s * (snd s / n)) l) <= qsum (map snd l) / n).
    { induction l as [|s l IH]; intros I; [cbn [map]; change (qsum []) with 0; apply div_nonneg; [exact P|lra]|]. cbn [map]. rewrite !qsum_cons. assert (X := IH (fun y Hy => I y (or_intror Hy))). destruct (F s (I s (or_introl eq_refl))) as [[A A'] C]. assert (D := div_nonneg (snd s) n P C). setoid_replace ((snd s + qsum (map snd l)) / n) with (snd s / n + qsum (map snd l) / n) by (field; lra). nra. }
    assert (X := LE scores (fun x H => H)). fold n in X. setoid_replace (n / n) with 1 in X by (field; lra). exact X.
Qed.

(** the fraction of the energy *)
Lemma label_of ms i m : NoDup (map e_id ms) -> In m ms -> e_id m = i -> label (fraction_per_meter ms) i = Ok (divide (meter_energy m) (total_energy ms)).
Proof.
  intros ND Hm E. unfold label, fraction_per_meter. set (d := total_energy ms). clearbody d.
  assert (X : filter (fun x => Nat.eqb (fst x) i) (map (fun m => (e_id m, divide (meter_energy m) d)) ms) = [(i, divide (meter_energy m) d)]).
  { induction ms as [|a ms IH]; [destruct Hm|]. cbn in ND. inversion_clear ND as [|p q N ND']. cbn [map filter fst]. destruct Hm as [->|Hm].
    - rewrite E, Nat.eqb_refl. f_equal. rewrite E in N. clear - N. induction ms as [|b ms IH]; [reflexivity|]. cbn [map filter fst]. destruct (Nat.eqb_spec (e_id b) i) as [X|X]; [exfalso; apply N; left; exact X|]. apply IH. intros Y. apply N. right. exact Y.
    - destruct (Nat.eqb_spec (e_id a) i) as [X|X]; [exfalso; apply N; rewrite X, <- E; apply in_map, Hm|]. apply IH; assumption. }
  rewrite X. reflexivity.
Qed.
Lemma label_proper ms i : proper ms -> In i (map e_id ms) -> exists q, label (fraction_per_meter ms) i = Ok (Fin q) /\ fraction_of ms i q /\ 0 <= q.
Proof.
  intros (ND & V & T) H. apply in_map_iff in H. destruct H as (m & E & Hm). destruct (V m Hm) as (q & EQ & NQ). exists (q / total_energy ms). rewrite (label_of ms i m ND Hm E), EQ, divide_fin by lra. split; [reflexivity|]. split; [|apply div_nonneg; assumption]. exists m, q. repeat split; auto; reflexivity.
Qed.
Lemma fraction_unique ms i f f' : proper ms -> fraction_of ms i f -> fraction_of ms i f' -> f == f'.
Proof.
  intros (ND & _) (m & q & Hm & E & EQ & F) (m' & q' & Hm' & E' & EQ' & F'). assert (m = m') by (apply (id_inj ms); congruence). subst m'. rewrite F, F'. rewrite EQ in EQ'. injection EQ' as ->. reflexivity.
Qed.
Definition frac (ms : list emeter) (i : nat) : Q := match label (fraction_per_meter ms) i with Ok (Fin q) => q | _ => 0 end.
Lemma frac_spec ms i : proper ms -> In i (map e_id ms) -> label (fraction_per_meter ms) i = Ok (Fin (frac ms i)) /\ fraction_of ms i (frac ms i) /\ 0 <= frac ms i.
Proof. intros P H. destruct (label_proper ms i P H) as (q & E & F & N). unfold frac. rewrite E. auto. Qed.
Lemma py_min_fin a b : exists m, py_min (Fin a) (Fin b) = Fin m /\ m <= a /\ m <= b /\ (m == a \/ m == b).
Proof.
  unfold py_min. cbn. destruct (Qle_bool a b) eqn:E; cbn.
  - apply Qle_bool_iff in E. exists a. repeat split; [lra|exact E|left; reflexivity].
  - assert (X : ~ a <= b) by (rewrite <- Qle_bool_iff; congruence). exists b. repeat split; [lra|lra|right; reflexivity].
Qed.
Lemma sum_min_thm gt pred : proper gt -> proper pred -> forall ids, incl ids (map e_id gt) -> incl ids (map e_id pred) -> forall a,
  exists f, sum_min (fraction_per_meter gt) (fraction_per_meter pred) ids (Fin a) = Ok (Fin f) /\ a <= f /\ f <= a + qsum (map (frac pred) ids) /\ f <= a + qsum (map (frac gt) ids) /\
    ((forall i, In i ids -> frac pred i <= frac gt i) <-> f == a + qsum (map (frac pred) ids)).
Proof.
  intros PG PP. induction ids as [|i ids IH]; intros IG IP a; cbn [sum_min map].
  - exists a. change (qsum []) with 0. repeat split; try lra. intros _ i [].
  - destruct (frac_spec gt i PG (IG i (or_introl eq_refl))) as (EG & _ & NG), (frac_spec pred i PP (IP i (or_introl eq_refl))) as (EP & _ & NP). rewrite EG, EP. cbn [bind]. destruct (py_min_fin (frac gt i) (frac pred i)) as (m & -> & M1 & M2 & M3). cbn [num_add].
    destruct (IH (fun x H => IG x (or_intror H)) (fun x H => IP x (or_intror H)) (a + m)) as (f & -> & F1 & F2 & F3 & F4). exists f. rewrite !qsum_cons. assert (NM : 0 <= m) by (destruct M3; lra). split; [reflexivity|]. split; [lra|]. split; [lra|]. split; [lra|]. split.
    + intros A. assert (X := proj1 F4 (fun j Hj => A j (or_intror Hj))). assert (Y := A i (or_introl eq_refl)). destruct M3; lra.
    + intros E. assert (Z : m == frac pred i /\ f == a + m + qsum (map (frac pred) ids)) by (split; lra). destruct Z as [Z1 Z2]. intros j [<-|Hj]; [lra|]. apply F4; assumption.
Qed.
Lemma frac_total ms : proper ms -> qsum (map (frac ms) (map e_id ms)) == 1.
Proof.
  intros (ND & V & T). rewrite map_map. assert (X : forall l, incl l ms -> qsum (map (fun m => frac ms (e_id m)) l) == series_sum (map meter_energy l) / total_energy ms).
  { induction l as [|m l IH]; intros I; [cbn [map]; change (qsum []) with 0; unfold series_sum; cbn; field; lra|]. cbn [map]. rewrite qsum_cons, IH by (intros x Hx; apply I; right; exact Hx). assert (Hm := I m (or_introl eq_refl)). destruct (V m Hm) as (q & EQ & NQ). unfold frac at 1. rewrite (label_of ms (e_id m) m ND Hm eq_refl), EQ, divide_fin by lra. unfold series_sum. cbn [valid_of flat_map app]. fold (valid_of (map meter_energy l)). rewrite qsum_cons. field. lra. }
  rewrite (X ms (fun x H => H)). fold (total_energy ms). unfold total_energy in *. field. lra.
Qed.
Lemma qsum_incl (f : nat -> Q) l : forall l', NoDup l -> incl l l' -> (forall x, In x l' -> 0 <= f x) -> qsum (map f l) <= qsum (map f l').
Proof.
  induction l as [|x l IH]; intros l' ND I N; [cbn [map]; change (qsum []) with 0; apply qsum_nonneg; exact N|]. inversion_clear ND as [|p q NI ND'].
  destruct (in_split x l' (I x (or_introl eq_refl))) as (l1 & l2 & ->). assert (X := IH (l1 ++ l2) ND'). cbn [map]. rewrite qsum_cons, map_app, qsum_app. cbn [map]. rewrite qsum_cons. rewrite map_app, qsum_app in X. assert (Y : qsum (map f l) <= qsum (map f l1) + qsum (map f l2)). { apply X. { intros y Hy. assert (Z := I y (or_intror Hy)). rewrite in_app_iff in *. destruct Z as [Z|[Z|Z]]; [auto|subst; contradiction|auto]. } intros y Hy. apply N. rewrite in_app_iff in *. cbn. destruct Hy; auto. } lra.
Qed.
Lemma le_all_eq (f g : nat -> Q) l : (forall i, In i l -> f i <= g i) -> qsum (map g l) <= qsum (map f l) -> forall i, In i l -> f i == g i.
Proof.
  induction l as [|x l IH]; intros A B i Hi; [destruct Hi|]. cbn [map] in B. rewrite !qsum_cons in B. assert (LE : forall l, (forall i, In i l -> f i <= g i) -> qsum (map f l) <= qsum (map g l)) by (clear; induction l as [|x l IH]; intros A; [cbn; lra|]; cbn [map]; rewrite !qsum_cons; assert (X := A x (or_introl eq_refl)); assert (Y := IH (fun y Hy => A y (or_intror Hy))); lra).
  assert (X := LE l (fun y Hy => A y (or_intror Hy))). assert (Y := A x (or_introl eq_refl)). destruct Hi as [<-|Hi]; [lra|]. apply IH; [intros y Hy; apply A; right; exact Hy|lra|exact Hi].
Qed.
Lemma fraction_thm pred gt : proper pred -> proper gt -> incl (map e_id pred) (map e_id gt) ->
  exists f, fraction_energy_assigned_correctly pred gt = Ok (Fin f) /\ 0 <= f <= 1 /\
    (f == 1 <-> forall i p g, fraction_of pred i p -> fraction_of gt i g -> p == g).
Proof.
  intros PP PG I. unfold fraction_energy_assigned_correctly. destruct (sum_min_thm gt pred PG PP (map e_id pred) I (fun x H => H) 0) as (f & E & A & B & C & D). exists f. split; [exact E|]. assert (T := frac_total pred PP). assert (TG := frac_total gt PG).
  assert (S := qsum_incl (frac gt) (map e_id pred) (map e_id gt) (proj1 PP) I (fun x H => proj2 (proj2 (frac_spec gt x PG H)))). split; [split; lra|]. split.
  - intros F i p g HP HG. assert (HI : In i (map e_id pred)) by (destruct HP as (m & q & Hm & <- & _); apply in_map, Hm).
    assert (LE := proj2 D ltac:(lra)). assert (EQ := le_all_eq (frac pred) (frac gt) _ LE ltac:(lra) i HI). rewrite (fraction_unique pred i p _ PP HP (proj1 (proj2 (frac_spec pred i PP HI)))), (fraction_unique gt i g _ PG HG (proj1 (proj2 (frac_spec gt i PG (I i HI))))). exact EQ.
  - intros H. assert (X : f == 0 + qsum (map (frac pred) (map e_id pred))). { apply D. intros i Hi. assert (Y := H i _ _ (proj1 (proj2 (frac_spec pred i PP Hi))) (proj1 (proj2 (frac_spec gt i PG (I i Hi))))). lra. } lra.
Qed.

(** A period of [when_on] is 1 after averaging iff all its samples are on. *)
Lemma window_on threshold c t p :
  Forall (fun v => v = 1 \/ v = 0) (window_values (when_on threshold c) t p) /\
  (Forall (fun v => v = 1) (window_values (when_on threshold c) t p) <->
   Forall (fun x => (t <= fst x < t + p)%Z -> exists v, snd x = Some v /\ threshold <= v) c).
Proof.
  induction c as [|[u o] c [A B]]; [split; [constructor|split; constructor]|]. unfold window_values, when_on in *. cbn [map flat_map fst snd].
  destruct ((t <=? u)%Z && (u <? t + p)%Z) eqn:W.
  - assert (HW : (t <= u < t + p)%Z) by (apply andb_true_iff in W; destruct W; lia). destruct o as [v|].
    + destruct (Qle_bool threshold v) eqn:L; cbn [app].
      * split; [constructor; [left; reflexivity|exact A]|]. split; intros H.
        -- inversion H; subst. constructor; [|apply B; assumption]. intros _. exists v. split; [reflexivity|apply Qle_bool_iff, L].
        -- inversion H; subst. constructor; [reflexivity|apply B; assumption].
      * split; [constructor; [right; reflexivity|exact A]|]. split; intros H; inversion H; subst.
        -- discriminate.
        -- destruct (H2 HW) as (v' & E & LE). injection E as <-. apply Qle_bool_iff in LE. congruence.
    + cbn [app]. split; [constructor; [right; reflexivity|exact A]|]. split; intros H; inversion H; subst; [discriminate|]. destruct (H2 HW) as (v' & E & _). discriminate E.
  - cbn [app]. split; [exact A|]. rewrite B. split; intros H; [constructor; [|exact H]|inversion H; assumption]. cbn [fst]. intros HW. exfalso. apply andb_false_iff in W. destruct W; lia.
Qed.
Lemma ones_sum l : Forall (fun v => v = 1 \/ v = 0) l -> 0 <= qsum l <= inject_Z (Z.of_nat (length l)) /\ (inject_Z (Z.of_nat (length l)) <= qsum l <-> Forall (fun v => v = 1) l).
Proof.
  induction 1 as [|v l [->| ->] F [IH1 IH2]]; [split; [split; apply Qle_refl|split; [constructor|intros _; apply Qle_refl]]| |]; cbn [length]; rewrite Nat2Z.inj_succ; unfold Z.succ; rewrite inject_Z_plus; change (inject_Z 1) with 1.
  - change (qsum (1 :: l)) with (1 + qsum l). split; [lra|]. split; intros H; [constructor; [reflexivity|apply IH2; lra]|]. inversion H as [|? ? ? H3]; subst. apply IH2 in H3. lra.
  - change (qsum (0 :: l)) with (0 + qsum l). split; [lra|]. split; intros H; [exfalso; lra|inversion H; discriminate].
Qed.
Lemma on_period threshold c t p m : window_mean (when_on threshold c) t p m ->
  0 <= m <= 1 /\ (1 <= m <-> Forall (fun x => (t <= fst x < t + p)%Z -> exists v, snd x = Some v /\ threshold <= v) c).
Proof.
  intros [NE E]. destruct (window_on threshold c t p) as [A B]. rewrite <- B. destruct (ones_sum _ A) as [C D]. rewrite <- D. set (l := window_values (when_on threshold c) t p) in *.
  assert (P : 0 < inject_Z (Z.of_nat (length l))) by (destruct l; [contradiction|]; cbn [length]; change 0 with (inject_Z 0); rewrite <- Zlt_Qlt; lia).
  assert (K : m * inject_Z (Z.of_nat (length l)) == qsum l) by (rewrite E; field; lra). set (n := inject_Z (Z.of_nat (length l))) in *. clearbody n. split; [split|split; intros H]; nra.
Qed.
