(** Proofs about the statistics of groups. *)
From Coq Require Import QArith Lqa Lia.
From Verif Require Import Base TimeFrameModel TimeFrameSpec EnergyModel TopModel GStatsModel GStatsSpec.
Open Scope Z_scope.

(** * Time frames *)
Definition loop := fix loop timeframe ms := match ms with
       | [] => Ok timeframe
       | m :: r => do t <- timeframe_step timeframe (get_timeframe m); loop t r
       end.
Lemma get_group ms : get_timeframe (TGroup ms) = loop None ms.
Proof. reflexivity. Qed.

Lemma union_bounded t s e t' s' e' : bounded t s e -> bounded t' s' e' ->
  exists u, tf_union t t' = Ok u /\ bounded u (Z.min s s') (Z.max e e').
Proof.
  intros (A & B & C & D) (A' & B' & C' & D'). unfold tf_union. rewrite A, A', B, B'.
  unfold mk, set_start, set_end, tf_cleared, tf_start, tf_end. cbn.
  destruct (Z.max e e' <=? Z.min s s') eqn:L; [apply Z.leb_le in L; lia|].
  eexists. split; [reflexivity|]. unfold bounded, tf_start, tf_end. cbn. repeat split; auto. lia.
Qed.

Definition span (l : list (res tf)) (u : tf) : Prop := exists s e, bounded u s e /\ earliest l s /\ latest l e.

Lemma bounded_fun t s e s' e' : bounded t s e -> bounded t s' e' -> s = s' /\ e = e'.
Proof. intros (A & B & _) (A' & B' & _). rewrite A in A'. rewrite B in B'. injection A'. injection B'. auto. Qed.

Lemma span_single t : is_bounded t -> span [Ok t] t.
Proof.
  intros (s & e & B). exists s, e. split; [exact B|]. split; split.
  - exists t, e. split; [left; reflexivity|exact B].
  - intros t' s' e' [E|[]] B'. injection E as <-. destruct (bounded_fun _ _ _ _ _ B B'). lia.
  - exists t, s. split; [left; reflexivity|exact B].
  - intros t' s' e' [E|[]] B'. injection E as <-. destruct (bounded_fun _ _ _ _ _ B B'). lia.
Qed.

Lemma span_union l l' t t' : span l t -> span l' t' ->
  exists u, tf_union t t' = Ok u /\ span (l ++ l') u.
Proof.
  intros (s & e & B & [(t1 & e1 & I1 & B1) M1] & [(t2 & s2 & I2 & B2) M2])
         (s' & e' & B' & [(t1' & e1' & I1' & B1') M1'] & [(t2' & s2' & I2' & B2') M2']).
  destruct (union_bounded _ _ _ _ _ _ B B') as (u & E & BU). exists u. split; [exact E|].
  exists (Z.min s s'), (Z.max e e'). split; [exact BU|]. split; split.
  - destruct (Z.min_spec s s') as [[L ->]|[L ->]].
    + exists t1, e1. split; [apply in_or_app; left; exact I1|exact B1].
    + exists t1', e1'. split; [apply in_or_app; right; exact I1'|exact B1'].
  - intros x sx ex I BX. apply in_app_or in I. destruct I as [I|I].
    + specialize (M1 _ _ _ I BX). lia.
    + specialize (M1' _ _ _ I BX). lia.
  - destruct (Z.max_spec e e') as [[L ->]|[L ->]].
    + exists t2', s2'. split; [apply in_or_app; right; exact I2'|exact B2'].
    + exists t2, s2. split; [apply in_or_app; left; exact I2|exact B2].
  - intros x sx ex I BX. apply in_app_or in I. destruct I as [I|I].
    + specialize (M2 _ _ _ I BX). lia.
    + specialize (M2' _ _ _ I BX). lia.
Qed.

Lemma span_skip l t' t : tf_empty t' = true -> span l t -> span (l ++ [Ok t']) t.
Proof.
  intros E (s & e & B & [(t1 & e1 & I1 & B1) M1] & [(t2 & s2 & I2 & B2) M2]).
  assert (N : forall x sx ex, In (Ok x) [Ok t'] -> bounded x sx ex -> False).
  { intros x sx ex [F|[]] (_ & _ & Z & _). injection F as <-. congruence. }
  exists s, e. split; [exact B|]. split; split.
  - exists t1, e1. split; [apply in_or_app; left; exact I1|exact B1].
  - intros x sx ex I BX. apply in_app_or in I. destruct I as [I|I]; [exact (M1 _ _ _ I BX)|destruct (N _ _ _ I BX)].
  - exists t2, s2. split; [apply in_or_app; left; exact I2|exact B2].
  - intros x sx ex I BX. apply in_app_or in I. destruct I as [I|I]; [exact (M2 _ _ _ I BX)|destruct (N _ _ _ I BX)].
Qed.

Lemma span_not_empty l t : span l t -> tf_empty t = false.
Proof. intros (s & e & (_ & _ & E & _) & _). exact E. Qed.

Section tnode_ind.
  Variable P : tnode -> Prop.
  Hypothesis PM : forall r, P (TMeter r).
  Hypothesis PG : forall ms, Forall P ms -> P (TGroup ms).
  Fixpoint tnode_ind' (n : tnode) : P n :=
    match n with
    | TMeter r => PM r
    | TGroup ms => PG ms ((fix go l : Forall P l := match l with [] => Forall_nil _ | m :: r => Forall_cons _ (tnode_ind' m) (go r) end) ms)
    end.
End tnode_ind.

Lemma loop_span : forall ms l t,
  Forall (fun n => readable n -> exists u, get_timeframe n = Ok (Some u) /\ span (meters_of n) u) ms ->
  Forall readable_or_empty ms -> span l t ->
  exists u, loop (Some t) ms = Ok (Some u) /\ span (l ++ flat_map meters_of ms) u.
Proof.
  induction ms as [|m ms IH]; intros l t H R S.
  - exists t. split; [reflexivity|]. cbn. rewrite app_nil_r. exact S.
  - apply Forall_cons_iff in H. destruct H as [Hm H]. apply Forall_cons_iff in R. destruct R as [Rm R].
    cbn [flat_map]. rewrite app_assoc. destruct Rm as [m Rm|t' E].
    + destruct (Hm Rm) as (u & G & SU). destruct (span_union _ _ _ _ S SU) as (w & EW & SW).
      destruct (IH _ _ H R SW) as (z & EZ & SZ). exists z. split; [|exact SZ].
      cbn [loop]. unfold timeframe_step. rewrite G. cbn [bind]. rewrite (span_not_empty _ _ SU), EW. exact EZ.
    + destruct (IH _ _ H R (span_skip _ _ _ E S)) as (z & EZ & SZ). exists z. split; [|exact SZ].
      cbn [loop]. unfold timeframe_step. cbn [get_timeframe bind]. rewrite E. exact EZ.
Qed.

Lemma timeframe_span : forall n, readable n -> exists u, get_timeframe n = Ok (Some u) /\ span (meters_of n) u.
Proof.
  induction n as [r|ms IH] using tnode_ind'; intros R.
  - inversion R as [t B|]; subst. exists t. split; [reflexivity|]. exact (span_single t B).
  - inversion R as [|m ms' Rm R']; subst. apply Forall_cons_iff in IH. destruct IH as [Hm H].
    destruct (Hm Rm) as (u & G & SU). destruct (loop_span _ _ _ H R' SU) as (z & EZ & SZ).
    exists z. split; [|exact SZ]. rewrite get_group. cbn [loop]. unfold timeframe_step. rewrite G. exact EZ.
Qed.

Lemma timeframe_covers : forall n t i, readable n -> In (Ok t) (meters_of n) -> is_bounded t -> inTF t i ->
  exists u, get_timeframe n = Ok (Some u) /\ inTF u i.
Proof.
  intros n t i R I (s & e & B) (_ & S & E). destruct (timeframe_span n R) as (u & G & s' & e' & (BS & BE & BN & BL) & [_ M1] & [_ M2]).
  exists u. split; [exact G|]. pose proof (M1 _ _ _ I B). pose proof (M2 _ _ _ I B). destruct B as (B1 & B2 & _).
  specialize (S _ B1). specialize (E _ B2).
  split; [exact BN|]. split.
  - intros z Z. rewrite BS in Z. injection Z as <-. lia.
  - intros z Z. rewrite BE in Z. injection Z as <-. lia.
Qed.

Lemma loop_raises : forall ms o,
  Forall (fun n => (exists e, In (Err e) (meters_of n)) -> exists e, get_timeframe n = Err e) ms ->
  (exists e, In (Err e) (flat_map meters_of ms)) -> exists e, loop o ms = Err e.
Proof.
  induction ms as [|m ms IH]; intros o H (e & I); [destruct I|].
  apply Forall_cons_iff in H. destruct H as [Hm H]. cbn [flat_map] in I. apply in_app_or in I. cbn [loop].
  destruct I as [I|I].
  - destruct (Hm (ex_intro _ e I)) as (e' & E'). exists e'. rewrite E'. unfold timeframe_step. destruct o; reflexivity.
  - destruct (timeframe_step o (get_timeframe m)) as [o'|e']; [|exists e'; reflexivity]. cbn [bind].
    apply IH; [exact H|exists e; exact I].
Qed.

Lemma timeframe_raises : forall n e, In (Err e) (meters_of n) -> exists e', get_timeframe n = Err e'.
Proof.
  assert (G : forall n, (exists e, In (Err e) (meters_of n)) -> exists e', get_timeframe n = Err e').
  { induction n as [r|ms IH] using tnode_ind'; intros (e & I).
    - destruct I as [->|[]]. exists e. reflexivity.
    - rewrite get_group. apply loop_raises; [exact IH|exists e; exact I]. }
  intros n e I. apply G. exists e. exact I.
Qed.

(** * Energies *)
Lemma ac_eqb_eq a b : ac_eqb a b = true <-> a = b.
Proof. destruct a, b; cbn; split; congruence. Qed.

Lemma lookup_iadd a s o : lookup a (iadd s o) =
  match lookup a s with
  | None => None
  | Some v => Some (match lookup a o with Some w => add_nan v w | None => None end)
  end.
Proof.
  induction s as [|[b v] s IH]; [reflexivity|]. cbn. destruct (ac_eqb a b) eqn:E; [|exact IH].
  apply ac_eqb_eq in E. subst. reflexivity.
Qed.

Definition sum_entry (x : option (option Q)) (y : option (option Q)) : option (option Q) :=
  match x with None => None | Some v => Some (match y with Some w => add_nan v w | None => None end) end.
Lemma lookup_fold a : forall l s, lookup a (fold_left iadd l s) = fold_left sum_entry (map (lookup a) l) (lookup a s).
Proof. induction l as [|o l IH]; intros s; [reflexivity|]. cbn. rewrite IH, lookup_iadd. reflexivity. Qed.

Section enode_ind.
  Variable P : enode -> Prop.
  Hypothesis PM : forall s, P (EMeter s).
  Hypothesis PG : forall f l, P f -> Forall P l -> P (EGroup f l).
  Fixpoint enode_ind' (n : enode) : P n :=
    match n with
    | EMeter s => PM s
    | EGroup f l => PG f l (enode_ind' f) ((fix go l : Forall P l := match l with [] => Forall_nil _ | m :: r => Forall_cons _ (enode_ind' m) (go r) end) l)
    end.
End enode_ind.

Lemma qsum_app l l' : (qsum (l ++ l') == qsum l + qsum l')%Q.
Proof.
  induction l as [|x l IH]; [change (qsum []) with 0%Q; cbn [app]; ring|].
  change (qsum ((x :: l) ++ l')) with (x + qsum (l ++ l'))%Q. change (qsum (x :: l)) with (x + qsum l)%Q. rewrite IH. ring.
Qed.

(** Every meter records the type: the sum. *)
Definition sums (a : actype) (n : enode) : Prop := forall vs,
  Forall2 (fun s v => amount s a v) (energies_of n) vs -> exists q, amount (group_energy n) a q /\ (q == qsum vs)%Q.
Lemma fold_sums a : forall l x vs v, Forall (sums a) l -> lookup a x = Some (Some v) ->
  Forall2 (fun s v => amount s a v) (flat_map energies_of l) vs ->
  exists q, amount (fold_left iadd (map group_energy l) x) a q /\ (q == v + qsum vs)%Q.
Proof.
  induction l as [|m l IH]; intros x vs v H X F.
  - cbn in F. inversion F; subst. exists v. split; [exact X|]. change (qsum []) with 0%Q. ring.
  - apply Forall_cons_iff in H. destruct H as [Hm H]. cbn [flat_map] in F. apply Forall2_app_inv_l in F.
    destruct F as (v1 & v2 & F1 & F2 & ->). destruct (Hm _ F1) as (q & Aq & Eq).
    destruct (IH (iadd x (group_energy m)) v2 (v + q)%Q H) as (r & Ar & Er).
    + rewrite lookup_iadd, X. unfold amount in Aq. rewrite Aq. reflexivity.
    + exact F2.
    + exists r. split; [exact Ar|]. rewrite Er, Eq, qsum_app. ring.
Qed.
Lemma energy_sum : forall n a vs, Forall2 (fun s v => amount s a v) (energies_of n) vs ->
  exists q, amount (group_energy n) a q /\ (q == qsum vs)%Q.
Proof.
  intros n a. change (sums a n). induction n as [s|f l IHf IHl] using enode_ind'; intros vs F.
  - cbn in F. inversion F as [|? v ? r A R]; subst. inversion R; subst. exists v. split; [exact A|]. change (qsum [v]) with (v + 0)%Q. ring.
  - cbn [energies_of] in F. apply Forall2_app_inv_l in F. destruct F as (v1 & v2 & F1 & F2 & ->).
    destruct (IHf _ F1) as (q & Aq & Eq). destruct (fold_sums a l _ v2 q IHl Aq F2) as (r & Ar & Er).
    exists r. split; [exact Ar|]. rewrite Er, Eq, qsum_app. ring.
Qed.

(** The types of the first meter are those of the total. *)
Lemma fold_none (a : actype) : forall l, fold_left sum_entry l None = None.
Proof. induction l; [reflexivity|exact IHl]. Qed.
Lemma fold_some (a : actype) : forall l v, exists w, fold_left sum_entry l (Some v) = Some w.
Proof. induction l as [|x l IH]; intros v; [exists v; reflexivity|]. cbn. apply IH. Qed.
Lemma energies_cons n : exists s r, energies_of n = s :: r.
Proof.
  induction n as [s|f l IHf _] using enode_ind'; [exists s, []; reflexivity|].
  destruct IHf as (s & r & E). cbn [energies_of]. rewrite E. exists s, (r ++ flat_map energies_of l). reflexivity.
Qed.
Lemma energy_types : forall n a s r, energies_of n = s :: r -> (records (group_energy n) a <-> records s a).
Proof.
  intros n a. unfold records. induction n as [s0|f l IHf _] using enode_ind'; intros s r E.
  - injection E as <- <-. reflexivity.
  - destruct (energies_cons f) as (s' & r' & E'). cbn [energies_of] in E. rewrite E' in E. injection E as <- _.
    rewrite <- (IHf s' r' E'). cbn [group_energy]. rewrite lookup_fold.
    destruct (lookup a (group_energy f)) as [v|].
    + destruct (fold_some a (map (lookup a) (map group_energy l)) v) as (w & ->). split; intros _; eexists; reflexivity.
    + rewrite (fold_none a). reflexivity.
Qed.

(** A meter that lacks the type, or has NaN for it, makes the total NaN (or the
    type disappears). *)
Lemma fold_nan (a : actype) : forall l, fold_left sum_entry l (Some None) = Some None.
Proof. induction l as [|x l IH]; [reflexivity|]. cbn. destruct x; exact IH. Qed.
Lemma fold_bad (a : actype) : forall l v, (exists x, In x l /\ (x = None \/ x = Some None)) -> fold_left sum_entry l (Some v) = Some None.
Proof.
  induction l as [|x l IH]; intros v (y & I & B); [destruct I|]. destruct I as [->|I].
  - cbn. destruct B as [->| ->]; [apply (fold_nan a)|]. destruct v; apply (fold_nan a).
  - cbn. apply IH. exists y. auto.
Qed.
Lemma energy_lost : forall n a s, In s (energies_of n) -> (forall q, ~ amount s a q) -> forall q, ~ amount (group_energy n) a q.
Proof.
  intros n a. unfold amount. induction n as [s0|f l IHf IHl] using enode_ind'; intros s I N q.
  - destruct I as [->|[]]. apply N.
  - cbn [group_energy]. rewrite lookup_fold. cbn [energies_of] in I. apply in_app_or in I. destruct I as [I|I].
    + specialize (IHf s I N). destruct (lookup a (group_energy f)) as [[v|]|].
      * destruct (IHf v eq_refl).
      * rewrite (fold_nan a). congruence.
      * rewrite (fold_none a). congruence.
    + destruct (lookup a (group_energy f)) as [v|]; [|rewrite (fold_none a); congruence].
      rewrite (fold_bad a); [congruence|]. apply in_flat_map in I. destruct I as (m & Im & Is).
      rewrite Forall_forall in IHl. specialize (IHl m Im s Is N). exists (lookup a (group_energy m)). split.
      * apply in_map, in_map, Im.
      * destruct (lookup a (group_energy m)) as [[w|]|]; auto. destruct (IHl w eq_refl).
Qed.

(** * Dropout rates *)
Lemma all_some_map {A} (l : list A) : all_some (map Some l) = Some l.
Proof. induction l as [|x l IH]; [reflexivity|]. cbn. rewrite IH. reflexivity. Qed.
Lemma all_some_inv {A} : forall (l : list (option A)) l', all_some l = Some l' -> l = map Some l'.
Proof.
  induction l as [|[x|] l IH]; intros l' E; cbn in E; [injection E as <-; reflexivity| |discriminate].
  destruct (all_some l) as [y|]; [|discriminate]. injection E as <-. cbn. f_equal. apply IH. reflexivity.
Qed.
Lemma len_pos {A} (x : A) l : (0 < inject_Z (Z.of_nat (length (x :: l))))%Q.
Proof. change 0%Q with (inject_Z 0). rewrite <- Zlt_Qlt. cbn [length]. lia. Qed.
Lemma mean_flat : forall rates, rates <> [] -> exists q,
  dropout_rate (DGroup (map (fun r => DMeter (Some r)) rates)) = Some q /\ mean_of rates q.
Proof.
  intros rates N. cbn [dropout_rate]. rewrite map_map. cbn [dropout_rate]. unfold np_mean.
  change (map (fun x : Q => Some x) rates) with (map (@Some Q) rates). rewrite all_some_map.
  destruct rates as [|x l]; [contradiction|]. eexists. split; [reflexivity|]. split; [exact N|].
  pose proof (len_pos x l). field. lra.
Qed.
Lemma qsum_bounds : forall l, Forall in_unit l -> (0 <= qsum l <= inject_Z (Z.of_nat (length l)))%Q.
Proof.
  induction l as [|x l IH]; intros H; [split; apply Qle_refl|]. apply Forall_cons_iff in H. destruct H as [[A B] H].
  specialize (IH H). cbn [length qsum fold_right]. fold (qsum l).
  rewrite Nat2Z.inj_succ, <- Z.add_1_l, inject_Z_plus. change (inject_Z 1) with 1%Q. lra.
Qed.
Section dnode_ind.
  Variable P : dnode -> Prop.
  Hypothesis PM : forall r, P (DMeter r).
  Hypothesis PG : forall ms, Forall P ms -> P (DGroup ms).
  Fixpoint dnode_ind' (n : dnode) : P n :=
    match n with
    | DMeter r => PM r
    | DGroup ms => PG ms ((fix go l : Forall P l := match l with [] => Forall_nil _ | m :: r => Forall_cons _ (dnode_ind' m) (go r) end) ms)
    end.
End dnode_ind.
Lemma no_empty_all ms : (fix all l := match l with [] => True | m :: r => no_empty_group m /\ all r end) ms <-> Forall no_empty_group ms.
Proof. induction ms as [|m ms IH]; [split; auto|]. rewrite Forall_cons_iff, IH. reflexivity. Qed.
Lemma rate_unit : forall n, no_empty_group n -> Forall (fun r => exists q, r = Some q /\ in_unit q) (rates_of n) ->
  exists q, dropout_rate n = Some q /\ in_unit q.
Proof.
  induction n as [r|ms IH] using dnode_ind'; intros E U.
  - cbn in U. apply Forall_cons_iff in U. destruct U as [U _]. exact U.
  - cbn [no_empty_group] in E. destruct E as [N E]. rewrite no_empty_all in E.
    assert (X : exists qs, map dropout_rate ms = map Some qs /\ Forall in_unit qs).
    { clear N. induction ms as [|m ms IHm]; [exists []; split; [reflexivity|constructor]|].
      apply Forall_cons_iff in IH. destruct IH as [H1 IH]. apply Forall_cons_iff in E. destruct E as [E1 E].
      cbn [rates_of flat_map] in U. apply Forall_app in U. destruct U as [U1 U].
      destruct (IHm IH E U) as (qs & Eq & Fq). destruct (H1 E1 U1) as (q & Er & Iq).
      exists (q :: qs). split; [cbn; rewrite Er, Eq; reflexivity|constructor; assumption]. }
    destruct X as (qs & Eq & Fq). cbn [dropout_rate]. unfold np_mean. rewrite Eq, all_some_map.
    destruct qs as [|q qs]; [destruct ms; [contradiction|discriminate]|].
    eexists. split; [reflexivity|]. pose proof (qsum_bounds _ Fq) as [B1 B2]. pose proof (len_pos q qs).
    split; [apply Qle_shift_div_l; [assumption|lra]|apply Qle_shift_div_r; [assumption|lra]].
Qed.
