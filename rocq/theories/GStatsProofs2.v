(** Proofs about proportions of energy. *)
From Coq Require Import QArith Lqa Lia Permutation.
From Verif Require Import Base TimeFrameModel EnergyModel TopModel GStatsModel GStatsSpec GStatsProofs.
Open Scope Z_scope.

Lemma in_types a : In a [Active; Apparent; Reactive].
Proof. destruct a; cbn; auto. Qed.
Lemma shared_in own other a : In a (shared_types own other) <-> records own a /\ records other a.
Proof.
  unfold shared_types, records. rewrite filter_In.
  destruct (lookup a own) as [v|], (lookup a other) as [w|]; split; intros H; try (destruct H as [_ H]; discriminate).
  - split; eexists; reflexivity.
  - split; [apply in_types|reflexivity].
  - destruct H as [_ [v' H]]. discriminate.
  - destruct H as [[v' H] _]. discriminate.
  - destruct H as [[v' H] _]. discriminate.
Qed.
Lemma shared_nodup own other : NoDup (shared_types own other).
Proof. apply NoDup_filter. repeat constructor; cbn; intuition discriminate. Qed.
Lemma shared_perm own other T : in_common own other T -> Permutation T (shared_types own other).
Proof.
  intros [N H]. apply NoDup_Permutation; [exact N|apply shared_nodup|]. intros a. rewrite H, shared_in. reflexivity.
Qed.


Lemma ratio_at_ok own other a r : ratio_ok own other a r -> exists q, ratio_at own other a a = Ok (Fin q) /\ (q == r)%Q.
Proof.
  intros (x & y & A & B & N & E). unfold ratio_at, energy_at. unfold amount in A, B. rewrite A, B. cbn [bind ratio divide].
  destruct (Qeq_bool y 0) eqn:Z; [apply Qeq_bool_iff in Z; contradiction|].
  exists (x / y)%Q. split; [reflexivity|]. symmetry. exact E.
Qed.
Lemma mapM_ratio own other : forall l rs, Forall2 (ratio_ok own other) l rs ->
  exists qs, mapM (fun a => ratio_at own other a a) l = Ok (map Fin qs) /\ Forall2 Qeq qs rs.
Proof.
  induction l as [|a l IH]; intros rs F; inversion F as [|? r ? rs' R F']; subst.
  - exists []. split; [reflexivity|constructor].
  - destruct (ratio_at_ok _ _ _ _ R) as (q & E & Q). destruct (IH _ F') as (qs & E' & F'').
    exists (q :: qs). split; [|constructor; assumption]. cbn [mapM]. rewrite E. cbn [bind]. rewrite E'. reflexivity.
Qed.
Lemma finite_fin qs : finite (map Fin qs) = qs.
Proof. unfold finite. induction qs as [|q qs IH]; [reflexivity|]. cbn. rewrite IH. reflexivity. Qed.
Lemma inf_fin b qs : has_inf b (map Fin qs) = false.
Proof. induction qs as [|q qs IH]; [reflexivity|]. cbn. exact IH. Qed.
Lemma qsum_eq : forall l l', Forall2 Qeq l l' -> (qsum l == qsum l')%Q.
Proof.
  intros l l' F. induction F as [|x y l l' E F IH]; [reflexivity|].
  change (qsum (x :: l)) with (x + qsum l)%Q. change (qsum (y :: l')) with (y + qsum l')%Q. rewrite E, IH. reflexivity.
Qed.
Lemma qsum_perm l l' : Permutation l l' -> (qsum l == qsum l')%Q.
Proof.
  induction 1 as [|x l l' P IH|x y l|l l' l'' P IH P' IH']; [reflexivity| | |rewrite IH; exact IH'].
  - change (x + qsum l == x + qsum l')%Q. rewrite IH. reflexivity.
  - change (y + (x + qsum l) == x + (y + qsum l))%Q. ring.
Qed.
Lemma forall2_perm {A B} (R : A -> B -> Prop) : forall l l', Permutation l l' ->
  forall m, Forall2 R l m -> exists m', Permutation m m' /\ Forall2 R l' m'.
Proof.
  induction 1 as [|x l l' P IH|x y l|l l' l'' P IH P' IH']; intros m F.
  - inversion F; subst. exists []. split; constructor.
  - inversion F as [|? z ? m' E F']; subst. destruct (IH _ F') as (m'' & P1 & F1).
    exists (z :: m''). split; [constructor; exact P1|constructor; assumption].
  - inversion F as [|? z ? m' E F']; subst. inversion F' as [|? w ? m'' E' F'']; subst.
    exists (w :: z :: m''). split; [apply perm_swap|repeat constructor; assumption].
  - destruct (IH _ F) as (m1 & P1 & F1). destruct (IH' _ F1) as (m2 & P2 & F2). exists m2. split; [|exact F2].
    etransitivity; eassumption.
Qed.
Lemma mean_perm l l' q : Permutation l l' -> mean_of l q -> mean_of l' q.
Proof.
  intros P [N E]. split.
  - intros ->. apply Permutation_sym, Permutation_nil in P. contradiction.
  - rewrite <- (Permutation_length P), <- (qsum_perm _ _ P). exact E.
Qed.
Lemma mean_eq l l' q : Forall2 Qeq l l' -> mean_of l q -> mean_of l' q.
Proof.
  intros F [N E]. split.
  - intros ->. inversion F; subst. contradiction.
  - assert (L : length l = length l') by (clear - F; induction F; cbn; congruence).
    rewrite <- L, <- (qsum_eq _ _ F). exact E.
Qed.

Lemma proportion_mean : forall own other T rs, has_energy other -> in_common own other T -> T <> [] ->
  Forall2 (ratio_ok own other) T rs ->
  exists q, proportion_of_energy own other = Ok (Fin q) /\ mean_of rs q.
Proof.
  intros own other T rs H C N F. pose proof (shared_perm _ _ _ C) as P.
  destruct (forall2_perm _ _ _ P _ F) as (rs' & PR & F').
  assert (X : exists q, proportion_of_energy own other = Ok (Fin q) /\ mean_of rs' q).
  { unfold proportion_of_energy, has_energy in *.
    destruct (Qeq_bool (series_sum (map snd other)) 0) eqn:Z; [apply Qeq_bool_iff in Z; contradiction|].
    destruct own as [|kv own].
    { destruct T as [|a T]; [contradiction|]. destruct C as [_ C]. destruct (proj1 (C a) (or_introl eq_refl)) as [[v V] _]. discriminate. }
    destruct (shared_types (kv :: own) other) as [|a [|b l]] eqn:S.
    - apply Permutation_sym, Permutation_nil in P. contradiction.
    - inversion F' as [|? r ? ? R F'']; subst. inversion F''; subst. destruct (ratio_at_ok _ _ _ _ R) as (q & E & Q).
      exists q. split; [exact E|]. split; [discriminate|]. change (q * 1 == r + 0)%Q. rewrite Q. ring.
    - destruct (mapM_ratio _ _ _ _ F') as (qs & E & Q). rewrite E. cbn [bind]. unfold series_mean.
      rewrite !inf_fin, finite_fin. destruct qs as [|q qs]; [inversion Q; subst; inversion F'|].
      eexists. split; [reflexivity|]. apply (mean_eq (q :: qs) _ _ Q). split; [discriminate|].
      pose proof (len_pos q qs). field. lra. }
  destruct X as (q & E & M). exists q. split; [exact E|]. exact (mean_perm _ _ _ (Permutation_sym PR) M).
Qed.

Lemma mean_unit l q : Forall in_unit l -> mean_of l q -> in_unit q.
Proof.
  intros U [N E]. destruct l as [|x l]; [contradiction|]. pose proof (qsum_bounds _ U) as [B1 B2]. pose proof (len_pos x l) as L.
  rewrite <- E in B1, B2. split; nra.
Qed.

Lemma proportion_range : forall own other T, has_energy other -> in_common own other T -> T <> [] ->
  (forall a, In a T -> exists x y, amount own a x /\ amount other a y /\ (0 <= x <= y)%Q /\ (0 < y)%Q) ->
  exists q, proportion_of_energy own other = Ok (Fin q) /\ in_unit q.
Proof.
  intros own other T H C N R.
  assert (X : exists rs, Forall2 (ratio_ok own other) T rs /\ Forall in_unit rs).
  { clear - R. induction T as [|a T IH]; [exists []; split; constructor|].
    destruct IH as (rs & F & U); [intros b I; apply R; right; exact I|].
    destruct (R a (or_introl eq_refl)) as (x & y & A & B & [L1 L2] & P). exists ((x / y)%Q :: rs). split; constructor; auto.
    - exists x, y. split; [exact A|]. split; [exact B|]. split; [lra|reflexivity].
    - split; [apply Qle_shift_div_l; [assumption|lra]|apply Qle_shift_div_r; [assumption|lra]]. }
  destruct X as (rs & F & U). destruct (proportion_mean _ _ _ _ H C N F) as (q & E & M).
  exists q. split; [exact E|]. exact (mean_unit _ _ U M).
Qed.

(** * Submetered energy *)
Lemma submetered_fold mains : forall ms ps acc b, Forall2 (prop_is mains) ms ps ->
  exists q, foldM (submetered_step mains) ms (Fin acc, b) = Ok (Fin q, b && match valid_of ps with [] => true | _ => false end)%bool /\
    (q == acc + qsum (valid_of ps))%Q.
Proof.
  induction ms as [|m ms IH]; intros ps acc b F; inversion F as [|? p ? ps' P F']; subst.
  - exists acc. split; [cbn; rewrite andb_true_r; reflexivity|]. change (qsum (valid_of [])) with 0%Q. ring.
  - cbn [foldM]. unfold submetered_step at 1. destruct p as [p|].
    + destruct P as (p' & E & Q). rewrite E. cbn [bind add_num fst].
      destruct (IH ps' (acc + p')%Q false F') as (q & Eq & Sq). exists q. split.
      * rewrite Eq. cbn. rewrite andb_false_r. reflexivity.
      * rewrite Sq. change (valid_of (Some p :: ps')) with (p :: valid_of ps'). change (qsum (p :: valid_of ps')) with (p + qsum (valid_of ps'))%Q. rewrite Q. ring.
    + unfold prop_is in P. rewrite P. cbn [bind].
      destruct (IH ps' acc b F') as (q & Eq & Sq). exists q. split; [exact Eq|exact Sq].
Qed.
Lemma submetered_sum : forall mains ms ps, Forall2 (prop_is mains) ms ps -> valid_of ps <> [] ->
  exists q, proportion_submetered ms mains = Ok (Fin q) /\ (q == qsum (valid_of ps))%Q.
Proof.
  intros mains ms ps F N. destruct (submetered_fold mains ms ps 0%Q true F) as (q & E & S).
  exists q. unfold proportion_submetered. rewrite E. cbn [bind snd fst]. destruct (valid_of ps); [contradiction|].
  split; [reflexivity|]. rewrite S. ring.
Qed.
Lemma submetered_none : forall mains ms, Forall (fun m => prop_is mains m None) ms -> proportion_submetered ms mains = Ok NaN.
Proof.
  intros mains ms F. unfold proportion_submetered.
  assert (E : foldM (submetered_step mains) ms (Fin 0, true) = Ok (Fin 0, true)).
  { induction ms as [|m ms IH]; [reflexivity|]. apply Forall_cons_iff in F. destruct F as [P F]. cbn [foldM].
    unfold submetered_step at 1. cbn in P. rewrite P. cbn [bind]. apply IH, F. }
  rewrite E. reflexivity.
Qed.

(** Sum over the meters of the mean over the types = mean over the types of the sum. *)
Lemma sum_ratio_bound : forall T (ms : list (list Q)),
  T <> 0%nat -> Forall (fun rs => length rs = T) ms ->
  (forall k, (k < T)%nat -> (0 <= qsum (map (fun rs => nth k rs 0%Q) ms) <= 1)%Q) ->
  (0 <= qsum (map qsum ms) <= inject_Z (Z.of_nat T))%Q.
Proof.
  intros T. induction T as [|T IH]; intros ms N L H; [contradiction|].
  assert (S : (qsum (map qsum ms) == qsum (map (fun rs => nth 0 rs 0%Q) ms) + qsum (map qsum (map (@tl Q) ms)))%Q).
  { clear - L. induction ms as [|rs ms IHm]; [change (0 == 0 + 0)%Q; ring|]. apply Forall_cons_iff in L. destruct L as [L1 L].
    destruct rs as [|r rs]; [discriminate|].
    change ((r + qsum rs) + qsum (map qsum ms) == (r + qsum (map (fun rs => nth 0 rs 0%Q) ms)) + (qsum rs + qsum (map qsum (map (@tl Q) ms))))%Q.
    rewrite (IHm L). ring. }
  rewrite Nat2Z.inj_succ, <- Z.add_1_l, inject_Z_plus. change (inject_Z 1) with 1%Q. rewrite S.
  pose proof (H 0%nat ltac:(lia)) as H0.
  destruct T as [|T].
  - assert (E : (qsum (map qsum (map (@tl Q) ms)) == 0)%Q).
    { clear - L. induction ms as [|rs ms IHm]; [reflexivity|]. apply Forall_cons_iff in L. destruct L as [L1 L].
      destruct rs as [|r [|? ?]]; try discriminate. change (0 + qsum (map qsum (map (@tl Q) ms)) == 0)%Q. rewrite (IHm L). ring. }
    rewrite E. change (inject_Z (Z.of_nat 0)) with 0%Q. lra.
  - assert (B := IH (map (@tl Q) ms)). destruct B as [B1 B2].
    + discriminate.
    + rewrite Forall_map. eapply Forall_impl; [|exact L]. intros rs E. destruct rs; [discriminate|]. cbn in *. congruence.
    + intros k K. specialize (H (Datatypes.S k) ltac:(lia)). rewrite map_map.
      erewrite map_ext_in; [exact H|]. intros rs I. rewrite Forall_forall in L. specialize (L rs I).
      destruct rs; [discriminate|]. reflexivity.
    + lra.
Qed.

Lemma amount_fun s a x y : amount s a x -> amount s a y -> x = y.
Proof. unfold amount. congruence. Qed.

Lemma qsum_div l y : ~ (y == 0)%Q -> (qsum (map (fun x => x / y) l) == qsum l / y)%Q.
Proof.
  intros N. induction l as [|x l IH]; [change (0 == 0 / y)%Q; field; exact N|].
  change (x / y + qsum (map (fun x => x / y) l) == (x + qsum l) / y)%Q. rewrite IH. field. exact N.
Qed.

Lemma submetered_range : forall mains ms T, has_energy mains -> T <> [] -> ms <> [] ->
  Forall (fun m => in_common m mains T) ms ->
  (forall a, In a T -> exists y xs, amount mains a y /\ (0 < y)%Q /\ amounts ms a xs /\ Forall (fun x => (0 <= x)%Q) xs /\ (qsum xs <= y)%Q) ->
  exists q, proportion_submetered ms mains = Ok (Fin q) /\ in_unit q.
Proof.
  intros mains ms T H NT NM C A.
  (* the table of ratios *)
  set (val := fun m a => match lookup a m with Some (Some x) => x | _ => 0%Q end).
  set (rat := fun m => map (fun a => (val m a / val mains a)%Q) T).
  assert (V : forall a, In a T -> (0 < val mains a)%Q /\ Forall (fun m => amount m a (val m a)) ms /\ amount mains a (val mains a) /\ (0 <= qsum (map (fun m => val m a) ms) <= val mains a)%Q).
  { intros a I. destruct (A a I) as (y & xs & Y & P & X & X0 & L). unfold val at 1. unfold amount in Y. rewrite Y. split; [exact P|].
    assert (E : map (fun m => val m a) ms = xs).
    { clear - X. unfold amounts in X. induction X as [|m x ms xs M X IH]; [reflexivity|]. cbn. rewrite IH. unfold val, amount in *. rewrite M. reflexivity. }
    split; [|split; [unfold val, amount; rewrite Y; reflexivity|]].
    - clear - X. induction X as [|m x ms xs M X IH]; constructor; auto. unfold val, amount in *. rewrite M. reflexivity.
    - rewrite E. unfold val. rewrite Y. split; [|exact L]. clear - X0. induction X0 as [|x xs P X0 IH]; [apply Qle_refl|].
      change (0 <= x + qsum xs)%Q. lra. }
  assert (PM : Forall (fun m => exists q, proportion_of_energy m mains = Ok (Fin q) /\ mean_of (rat m) q) ms).
  { rewrite Forall_forall. intros m I. rewrite Forall_forall in C. apply (proportion_mean m mains T (rat m) H (C m I) NT).
    unfold rat. assert (V' : forall a, In a T -> ratio_ok m mains a (val m a / val mains a)).
    { intros a Ia. destruct (V a Ia) as (P & F & Y & _). rewrite Forall_forall in F. exists (val m a), (val mains a).
      split; [exact (F m I)|]. split; [exact Y|]. split; [lra|reflexivity]. }
    clear - V'. induction T as [|a T IH]; constructor; [apply V'; left; reflexivity|]. apply IH. intros b Ib. apply V'. right. exact Ib. }
  assert (X : exists qs, Forall2 (prop_is mains) ms (map Some qs) /\ Forall2 (fun m q => mean_of (rat m) q) ms qs).
  { clear - PM. induction PM as [|m ms (q & E & M) PM (qs & F1 & F2)]; [exists []; split; constructor|].
    exists (q :: qs). split; constructor; auto. exists q. split; [exact E|reflexivity]. }
  destruct X as (qs & F1 & F2).
  assert (VO : valid_of (map Some qs) = qs) by (clear; induction qs as [|x qs IH]; [reflexivity|change (x :: valid_of (map Some qs) = x :: qs); rewrite IH; reflexivity]).
  destruct (submetered_sum mains ms (map Some qs) F1) as (q & E & S).
  { rewrite VO. destruct F2; [contradiction|discriminate]. }
  exists q. split; [exact E|]. rewrite VO in S.
  set (n := inject_Z (Z.of_nat (length T))).
  assert (NP : (0 < n)%Q) by (unfold n; destruct T as [|a T']; [contradiction|apply len_pos]).
  assert (SN : (qsum qs * n == qsum (map qsum (map rat ms)))%Q).
  { clear - F2. induction F2 as [|m q ms qs [_ M] F2 IH]; [change (0 * n == 0)%Q; ring|].
    change ((q + qsum qs) * n == qsum (rat m) + qsum (map qsum (map rat ms)))%Q. rewrite <- IH, <- M. unfold rat. rewrite map_length. fold n. ring. }
  assert (B : (0 <= qsum (map qsum (map rat ms)) <= n)%Q).
  { apply sum_ratio_bound.
    - destruct T; [contradiction|discriminate].
    - rewrite Forall_map. apply Forall_forall. intros m _. apply map_length.
    - intros k K. destruct (nth_error T k) as [a|] eqn:Ea; [|apply nth_error_None in Ea; lia].
      assert (Ia := nth_error_In _ _ Ea). destruct (V a Ia) as (P & _ & _ & L). rewrite map_map.
      assert (EQ : map (fun m => nth k (rat m) 0%Q) ms = map (fun x => (x / val mains a)%Q) (map (fun m => val m a) ms)).
      { rewrite map_map. apply map_ext. intros m. unfold rat. apply nth_error_nth. rewrite nth_error_map, Ea. reflexivity. }
      rewrite EQ, qsum_div by lra. split; [apply Qle_shift_div_l; [assumption|lra]|apply Qle_shift_div_r; [assumption|lra]]. }
  rewrite <- SN in B. unfold in_unit. rewrite S. split; nra.
Qed.

Lemma leading_empty ms : get_timeframe (TGroup (TGroup [] :: ms)) = get_timeframe (TGroup ms).
Proof. reflexivity. Qed.
Lemma no_energy own other :
  (~ has_energy other -> proportion_of_energy own other = Ok NaN) /\
  (has_energy other -> proportion_of_energy [] other = Ok (Fin 0)).
Proof.
  unfold has_energy, proportion_of_energy. destruct (Qeq_bool (series_sum (map snd other)) 0) eqn:E; split; intros H; try reflexivity; exfalso.
  - apply H, Qeq_bool_iff, E.
  - apply H. intros X. apply Qeq_bool_iff in X. congruence.
Qed.
