From Verif Require Import Base FhmmModel FhmmSpec FhmmProofs.
From Coq Require Import QArith Qround Lqa Sorted Permutation.
Open Scope nat_scope.

Lemma insertQ_perm x l : Permutation (insertQ x l) (x :: l).
Proof. induction l as [|y l IH]; cbn; [reflexivity|]. destruct (Qle_bool x y); [reflexivity|]. rewrite IH. apply perm_swap. Qed.
Lemma sortQ_perm l : Permutation (sortQ l) l.
Proof. induction l as [|x l IH]; cbn; [reflexivity|]. rewrite insertQ_perm, IH. reflexivity. Qed.
Lemma insertQ_sorted x l : StronglySorted Qle l -> StronglySorted Qle (insertQ x l).
Proof.
  induction l as [|y l IH]; intros H; cbn; [constructor; constructor|]. apply StronglySorted_inv in H. destruct H as [H1 H2]. destruct (Qle_bool x y) eqn:E.
  - apply Qle_bool_iff in E. constructor; [constructor; assumption|]. constructor; [exact E|]. eapply Forall_impl; [|exact H2]. cbn. intros a Ha. lra.
  - assert (L : (y <= x)%Q) by (destruct (Qlt_le_dec y x) as [L|L]; [lra|apply Qle_bool_iff in L; congruence]). constructor; [apply IH; exact H1|]. eapply Permutation_Forall; [symmetry; apply insertQ_perm|]. constructor; assumption.
Qed.
Lemma sortQ_sorted l : StronglySorted Qle (sortQ l).
Proof. induction l as [|x l IH]; cbn; [constructor|]. apply insertQ_sorted. exact IH. Qed.

Lemma where_first_ok v l : (exists x, In x l /\ (v == x)%Q) -> exists i x, where_first v l = Ok i /\ nth_error l i = Some x /\ (v == x)%Q.
Proof.
  induction l as [|y l IH]; intros (x & Hx & E); [destruct Hx|]. cbn [where_first]. destruct (Qeq_bool v y) eqn:B.
  - exists 0, y. split; [reflexivity|]. split; [reflexivity|]. apply Qeq_bool_iff. exact B.
  - destruct Hx as [->|Hx]; [apply Qeq_bool_iff in E; congruence|]. destruct IH as (i & z & H1 & H2 & H3); [eauto|]. exists (S i), z. rewrite H1. auto.
Qed.

Lemma mapM_F2 {A B} (f : A -> res B) l : forall ys, mapM f l = Ok ys <-> Forall2 (fun x y => f x = Ok y) l ys.
Proof.
  induction l as [|x l IH]; intros ys; cbn; split; intros H.
  - injection H as <-. constructor.
  - inversion H. reflexivity.
  - destruct (f x) as [y|e] eqn:E; [|discriminate]. cbn in H. destruct (mapM f l) as [zs|e] eqn:E2; [|discriminate]. injection H as <-. constructor; [exact E|]. apply IH. reflexivity.
  - inversion H as [|? y ? zs H1 H2]; subst. rewrite H1. cbn. apply IH in H2. rewrite H2. reflexivity.
Qed.
Lemma mapM_ok {A B} (f : A -> res B) l : (forall x, In x l -> exists y, f x = Ok y) -> exists ys, mapM f l = Ok ys.
Proof.
  induction l as [|x l IH]; intros H; cbn; [eauto|]. destruct (H x (or_introl eq_refl)) as [y Ey]. rewrite Ey. destruct IH as [ys E]; [intros z Hz; apply H; right; exact Hz|]. rewrite E. cbn. eauto.
Qed.

Lemma mapping_ok l : exists m, return_sorting_mapping l = Ok m /\ Forall2 (fun v i => exists x, nth_error l i = Some x /\ (v == x)%Q) (sortQ l) m.
Proof.
  unfold return_sorting_mapping. assert (H : forall v, In v (sortQ l) -> exists i x, where_first v l = Ok i /\ nth_error l i = Some x /\ (v == x)%Q).
  { intros v Hv. apply where_first_ok. exists v. split; [eapply Permutation_in; [apply sortQ_perm|exact Hv]|reflexivity]. }
  destruct (mapM_ok (fun v => where_first v l) (sortQ l)) as [m E]; [intros x Hx; destruct (H x Hx) as (i & y & K & _); eauto|].
  exists m. split; [exact E|]. apply mapM_F2 in E. clear -E H. induction E as [|v i s m Ev E IH]; constructor; [|apply IH; intros w Hw; apply H; right; exact Hw].
  destruct (H v (or_introl eq_refl)) as (i' & x & K1 & K2 & K3). assert (i' = i) by congruence. subst i'. eauto.
Qed.

Lemma sort_rows_ok {A} (m : list nat) (l : list A) : length m = length l -> Forall (fun i => i < length l) m -> exists l', sort_rows m l = Ok l' /\ reordered m l l'.
Proof.
  intros HL HB. unfold sort_rows, reordered. rewrite <- HL.
  assert (G : forall pre m', Forall (fun i => i < length l) m' -> exists l', mapM (fun i => do j <- lookup (pre ++ m') i; item l j) (seq (length pre) (length m')) = Ok l' /\ map Some l' = map (nth_error l) m').
  { intros pre m'. revert pre. induction m' as [|i m' IH]; intros pre HF; [exists []; split; reflexivity|]. inversion_clear HF. cbn [length seq mapM]. unfold lookup at 1. rewrite nth_error_app2, Nat.sub_diag by lia. cbn [nth_error bind].
    destruct (nth_some l i H) as [x Ex]. unfold item at 1. rewrite Ex. cbn [bind]. destruct (IH (pre ++ [i]) H0) as (l' & E1 & E2). rewrite app_length in E1. cbn [length] in E1. rewrite Nat.add_1_r in E1. rewrite <- app_assoc in E1. cbn [app] in E1. rewrite E1. cbn [bind]. exists (x :: l'). split; [reflexivity|]. cbn [map]. rewrite Ex, E2. reflexivity. }
  exact (G [] m HB).
Qed.

Lemma sort_transition_ok (m : list nat) (a : list (list Q)) : length m = length a -> Forall (fun i => i < length a) m -> Forall (fun r => length r = length a) a ->
  exists a', sort_transition_matrix m a = Ok a' /\ Forall2 (fun i r' => exists r, nth_error a i = Some r /\ reordered m r r') m a'.
Proof.
  intros HL HB HR.
  assert (G1 : forall i r, nth_error a i = Some r -> length r = length a) by (intros i r H; rewrite Forall_forall in HR; apply HR; eapply nth_error_In; exact H).
  unfold sort_transition_matrix. rewrite <- HL.
  assert (G : forall pre m', pre ++ m' = m -> exists a', mapM (fun i => mapM (fun j => do i' <- lookup m i; do j' <- lookup m j; do r <- item a i'; item r j') (seq 0 (length m))) (seq (length pre) (length m')) = Ok a' /\ Forall2 (fun i r' => exists r, nth_error a i = Some r /\ reordered m r r') m' a').
  { intros pre m'. revert pre. induction m' as [|i m' IH]; intros pre E; [exists []; split; [reflexivity|constructor]|]. cbn [length seq mapM].
    assert (EI : lookup m (length pre) = Ok i) by (unfold lookup; rewrite <- E, nth_error_app2, Nat.sub_diag by lia; reflexivity).
    assert (HI : i < length a) by (rewrite Forall_forall in HB; apply HB; rewrite <- E; apply in_or_app; right; left; reflexivity).
    destruct (nth_some a i HI) as [r Er]. destruct (sort_rows_ok m r) as (r' & R1 & R2); [rewrite (G1 i r Er); exact HL|rewrite (G1 i r Er); exact HB|].
    assert (EX : mapM (fun j => do i' <- lookup m (length pre); do j' <- lookup m j; do r0 <- item a i'; item r0 j') (seq 0 (length m)) = Ok r').
    { unfold sort_rows in R1. rewrite (G1 i r Er), <- HL in R1. rewrite <- R1. rewrite EI. unfold item at 1. cbn [bind]. clear -Er. induction (seq 0 (length m)) as [|j s IH]; [reflexivity|]. cbn [mapM]. rewrite IH. destruct (lookup m j); [|reflexivity]. cbn [bind]. rewrite Er. reflexivity. }
    rewrite EX. cbn [bind]. destruct (IH (pre ++ [i])) as (a' & A1 & A2); [rewrite <- app_assoc; exact E|]. rewrite app_length in A1. cbn [length] in A1. rewrite Nat.add_1_r in A1. rewrite A1. cbn [bind]. exists (r' :: a'). split; [reflexivity|]. constructor; [eauto|exact A2]. }
  exact (G [] m eq_refl).
Qed.

Lemma distinct_nodup l : distinct l <-> NoDup (map Qred l).
Proof.
  unfold distinct. rewrite NoDup_nth_error. split; intros H i j.
  - intros Hi E. rewrite map_length in Hi. destruct (nth_some l i Hi) as [x Ex]. rewrite !nth_error_map, Ex in E. cbn in E. destruct (nth_error l j) as [y|] eqn:Ey; [|discriminate]. injection E as E. apply (H i j x y Ex Ey). rewrite <- (Qred_correct x), <- (Qred_correct y), E. reflexivity.
  - intros x y Ex Ey E. apply H; [rewrite map_length; apply nth_error_Some; congruence|]. rewrite !nth_error_map, Ex, Ey. cbn. f_equal. apply Qred_complete. exact E.
Qed.

Lemma F2_nth {A B} (R : A -> B -> Prop) l l' i x : Forall2 R l l' -> nth_error l i = Some x -> exists y, nth_error l' i = Some y /\ R x y.
Proof. intros H. revert i. induction H as [|a b l l' Hab H IH]; intros [|i] E; try discriminate; cbn in *; [injection E as <-; eauto|eauto]. Qed.
Lemma F2_len {A B} (R : A -> B -> Prop) l l' : Forall2 R l l' -> length l = length l'.
Proof. induction 1; cbn; congruence. Qed.

Lemma sort_thm {C} n (h : hmm C) : shaped n (startprob h) (transmat h) (means h) -> length (covars h) = n ->
  exists m h', sort_learnt_parameters h = Ok h' /\ StronglySorted Qle (means h') /\ Permutation (means h') (means h) /\
    length m = n /\ Forall (fun i => i < n) m /\ Forall2 (fun v i => exists x, nth_error (means h) i = Some x /\ (v == x)%Q) (means h') m /\
    reordered m (startprob h) (startprob h') /\ reordered m (covars h) (covars h') /\
    Forall2 (fun i r' => exists r, nth_error (transmat h) i = Some r /\ reordered m r r') m (transmat h').
Proof.
  intros (S1 & S2 & S3 & S4) SC. destruct (mapping_ok (means h)) as (m & E & HF).
  assert (HL : length m = n) by (rewrite <- (F2_len _ _ _ HF), (Permutation_length (sortQ_perm (means h))); exact S4).
  assert (HB : Forall (fun i => i < n) m).
  { rewrite <- S4. clear -HF. induction HF as [|v i l m (x & Hx & _) HF IH]; constructor; [apply nth_error_Some; congruence|exact IH]. }
  unfold sort_learnt_parameters. rewrite E. cbn [bind].
  destruct (sort_rows_ok m (startprob h)) as (s & E1 & R1); [congruence|rewrite S1; exact HB|]. rewrite E1. cbn [bind].
  destruct (sort_rows_ok m (covars h)) as (c & E2 & R2); [congruence|rewrite SC; exact HB|]. rewrite E2. cbn [bind].
  destruct (sort_transition_ok m (transmat h)) as (t & E3 & R3); [congruence|rewrite S2; exact HB|rewrite S2; exact S3|]. rewrite E3. cbn [bind].
  exists m. eexists. split; [reflexivity|]. cbn [means startprob covars transmat]. split; [apply sortQ_sorted|]. split; [apply sortQ_perm|]. auto 10.
Qed.

Lemma sort_distinct {C} n (h : hmm C) : shaped n (startprob h) (transmat h) (means h) -> length (covars h) = n -> distinct (means h) ->
  exists m h', sort_learnt_parameters h = Ok h' /\ Permutation m (seq 0 n) /\ StronglySorted Qle (means h') /\
    reordered m (means h) (means h') /\ reordered m (startprob h) (startprob h') /\ reordered m (covars h) (covars h') /\
    Forall2 (fun i r' => exists r, nth_error (transmat h) i = Some r /\ reordered m r r') m (transmat h').
Proof.
  intros HS HC HD. destruct (sort_thm n h HS HC) as (m & h' & E & T1 & T2 & T3 & T4 & T5 & T6 & T7 & T8). exists m, h'. split; [exact E|].
  assert (HD' : distinct (means h')) by (apply distinct_nodup; eapply Permutation_NoDup; [apply Permutation_map; symmetry; exact T2|apply distinct_nodup; exact HD]).
  assert (ND : NoDup m).
  { apply NoDup_nth_error. intros i j Hi Eq. assert (LL := F2_len _ _ _ T5). destruct (nth_some m i Hi) as [k Ek]. assert (Ej := Ek). rewrite Eq in Ej.
    destruct (nth_some (means h') i) as [v Ev]; [lia|]. destruct (nth_some (means h') j) as [w Ew]; [rewrite LL; apply nth_error_Some; congruence|].
    destruct (F2_nth _ _ _ _ _ T5 Ev) as (k1 & K1 & x1 & X1 & Q1). destruct (F2_nth _ _ _ _ _ T5 Ew) as (k2 & K2 & x2 & X2 & Q2). assert (k1 = k) by congruence. assert (k2 = k) by congruence. subst k1 k2. assert (x1 = x2) by congruence. subst x2.
    apply (HD' i j v w Ev Ew). rewrite Q1, Q2. reflexivity. }
  split; [|split; [exact T1|split; [|auto]]].
  - apply NoDup_Permutation_bis; [exact ND|rewrite seq_length; lia|]. intros i Hi. rewrite Forall_forall in T4. apply in_seq. specialize (T4 i Hi). lia.
  - unfold reordered. assert (IN : forall v, In v (means h') -> In v (means h)) by (intros v Hv; eapply Permutation_in; [exact T2|exact Hv]).
    clear -T5 IN HD. induction T5 as [|v i l m (x & Hx & Q1) T5 IH]; [reflexivity|]. cbn [map]. f_equal; [|apply IH; intros w Hw; apply IN; right; exact Hw].
    rewrite Hx. f_equal. assert (Iv := IN v (or_introl eq_refl)). apply In_nth_error in Iv. destruct Iv as [j Hj]. assert (j = i) by exact (HD j i v x Hj Hx Q1). subst j. congruence.
Qed.

(** Rounding and sorting. *)
Lemma floor_mono x y : (x <= y)%Q -> (Qfloor x <= Qfloor y)%Z.
Proof. apply Qfloor_resp_le. Qed.
Lemma round_cases x : (round_even x = Qfloor x /\ (x - inject_Z (Qfloor x) <= 1#2)%Q) \/ (round_even x = Qfloor x + 1 /\ (1#2 <= x - inject_Z (Qfloor x))%Q)%Z.
Proof.
  unfold round_even. destruct (Qle_bool (1#2) (x - inject_Z (Qfloor x))) eqn:E1; cbn [negb].
  - apply Qle_bool_iff in E1. destruct (Qle_bool (x - inject_Z (Qfloor x)) (1#2)) eqn:E2; cbn [negb]; [|right; auto]. apply Qle_bool_iff in E2. destruct (Z.even (Qfloor x)); auto.
  - left. split; [reflexivity|]. destruct (Qlt_le_dec (x - inject_Z (Qfloor x)) (1#2)) as [L|L]; [lra|]. apply Qle_bool_iff in L. congruence.
Qed.
Lemma round_mono x y : (x <= y)%Q -> (round_even x <= round_even y)%Z.
Proof.
  intros H. assert (F := floor_mono x y H). destruct (Z.eq_dec (Qfloor x) (Qfloor y)) as [E|N].
  - unfold round_even. rewrite <- E. set (f := Qfloor x).
    destruct (Qle_bool (1#2) (x - inject_Z f)) eqn:A1; cbn [negb]; destruct (Qle_bool (1#2) (y - inject_Z f)) eqn:B1; cbn [negb]; destruct (Qle_bool (x - inject_Z f) (1#2)) eqn:A2; cbn [negb]; destruct (Qle_bool (y - inject_Z f) (1#2)) eqn:B2; cbn [negb]; destruct (Z.even f); try lia; exfalso.
    all: try (apply Qle_bool_iff in A1). all: try (apply Qle_bool_iff in B2).
    all: try (assert (G : Qle_bool (1#2) (y - inject_Z f) = true) by (apply Qle_bool_iff; lra); congruence).
    all: try (assert (G : Qle_bool (x - inject_Z f) (1#2) = true) by (apply Qle_bool_iff; lra); congruence).
  - destruct (round_cases x) as [[-> _]|[-> _]]; destruct (round_cases y) as [[-> _]|[-> _]]; lia.
Qed.

Lemma sortZ_id l : StronglySorted Z.le l -> sortZ l = l.
Proof.
  induction 1 as [|x l HS IH HF]; [reflexivity|]. cbn [sortZ]. rewrite IH. destruct l as [|y l]; [reflexivity|]. cbn [insertZ]. inversion_clear HF. replace (x <=? y)%Z with true by (symmetry; apply Z.leb_le; exact H). reflexivity.
Qed.
Lemma rounded_sorted l : StronglySorted Qle l -> sortZ (map round_even l) = map round_even l.
Proof.
  intros H. apply sortZ_id. induction H as [|x l HS IH HF]; cbn; constructor; [exact IH|]. apply Forall_map. eapply Forall_impl; [|exact HF]. intros a Ha. apply round_mono. exact Ha.
Qed.

Lemma picks_map {A B} (f : A -> B) (ls : list (list A)) js xs : picks ls js xs -> picks (map (map f) ls) js (map f xs).
Proof. induction 1; cbn; constructor; [|assumption]. rewrite nth_error_map, H. reflexivity. Qed.

(** The whole disaggregation of a chunk. *)
Lemma predict_thm {C} ns (self : fhmm C) predict mains : individual self <> [] -> Forall (fun n => 0 < n) ns ->
  Forall2 (fun n (kv : nat * hmm C) => shaped n (startprob (snd kv)) (transmat (snd kv)) (means (snd kv)) /\ StronglySorted Qle (means (snd kv))) ns (individual self) ->
  mains <> [] -> Forall (fun s => s < size ns) (predict (map snd mains)) -> length (predict (map snd mains)) = length mains ->
  exists pi A mu rows, create_combined_hmm (map snd (individual self)) = Ok (pi, A, mu) /\
    disaggregate_one predict self mains = Ok (map Z.of_nat (seq 0 (length mains)), map fst (individual self), rows) /\
    Forall2 (fun s row => exists js ms, nth_error mu s = Some (sum ms) /\ picks (map (fun kv => means (snd kv)) (individual self)) js ms /\
                            row = map (fun m => Some (round_even m)) ms) (predict (map snd mains)) rows.
Proof.
  intros HN HP HS HM HB HL.
  assert (EC : centroids_of self = map (map round_even) (map (fun kv => means (snd kv)) (individual self))).
  { unfold centroids_of. rewrite map_map. clear -HS. induction HS as [|n kv ns l [_ H] HS IH]; [reflexivity|]. cbn [map]. rewrite IH, rounded_sorted by exact H. reflexivity. }
  assert (HC : lens (centroids_of self) = ns).
  { rewrite EC. clear -HS. induction HS as [|n kv ns l [(_ & _ & _ & H) _] HS IH]; [reflexivity|]. cbn [map lens]. rewrite map_length. f_equal; [exact H|exact IH]. }
  destruct (combined_thm ns (map snd (individual self)) (centroids_of self)) as (pi & A & mu & E1 & E2 & E3 & E4 & E5).
  { destruct (individual self); [contradiction|discriminate]. }
  { exact HP. }
  { clear -HS. induction HS as [|n kv ns l [H _] HS IH]; cbn; constructor; assumption. }
  { exact HC. }
  exists pi, A, mu. unfold disaggregate_one. destruct mains as [|x mains]; [contradiction|]. set (ss := predict (map snd (x :: mains))) in *.
  assert (G : exists ds, decode_hmm (centroids_of self) ss = Ok ds /\ Forall2 (fun s (d : list (nat * Z)) => exists js ms, nth_error mu s = Some (sum ms) /\ picks (map (fun kv => means (snd kv)) (individual self)) js ms /\ map (fun p => Some (snd p)) d = map (fun m => Some (round_even m)) ms) ss ds).
  { clearbody ss. clear HL. unfold decode_hmm. induction HB as [|s ss Hs HB IH]; [exists []; split; [reflexivity|constructor]|]. destruct IH as (ds & D1 & D2). destruct (E5 s Hs) as (d & F1 & F2 & (m & ms & F3 & F4 & F5) & _).
    exists (d :: ds). cbn [mapM]. rewrite F1. cbn [bind]. rewrite D1. cbn [bind]. split; [reflexivity|]. constructor; [|exact D2]. rewrite map_map in F4. exists (map fst d), ms. rewrite F3, F5. split; [reflexivity|]. split; [exact F4|].
    rewrite <- (map_map snd Some), <- (map_map round_even Some). f_equal. rewrite EC in F2. eapply picks_fun; [exact F2|]. apply picks_map. exact F4. }
  destruct G as (ds & D1 & D2). rewrite D1. cbn [bind]. exists (map (map (fun p => Some (snd p))) ds). split; [exact E1|]. split.
  - rewrite <- (F2_len _ _ _ D2). rewrite HL. reflexivity.
  - clear -D2. induction D2 as [|s d ss ds (js & ms & H1 & H2 & H3) D2 IH]; cbn; constructor; [eauto|exact IH].
Qed.
