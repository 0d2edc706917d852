(** Proofs about the summary of a group: dropout rates, success and failure. *)
From Coq Require Import QArith Lqa Lia.
From Verif Require Import Base TimeFrameModel TimeFrameSpec StoreModel StoreSpec EnergyModel EnergySpec AvgModel AvgSpec AvgProofs DescribeModel DescribeSpec DescribeProofs DescribeProofs2.
From Verif Require GStatsModel GStatsSpec GStatsProofs GroupModel GroupProofs IdealProofs.
Import List. Open Scope Z_scope.

(** ** Dropout rates *)
Lemma least_right : forall l x, In (fold_left least l x) (x :: l) /\ forall y, In y (x :: l) -> (fold_left least l x <= y)%Q.
Proof.
  induction l as [|z l IH]; intros x; cbn [fold_left].
  - split; [now left|]. intros y [<-|[]]. lra.
  - assert (K : (least x z = x \/ least x z = z) /\ (least x z <= x)%Q /\ (least x z <= z)%Q).
    { unfold least. destruct (Qle_bool x z) eqn:E; [apply Qle_bool_iff in E; split; [now left|lra]|].
      split; [now right|]. split; [|lra]. destruct (Qlt_le_dec x z) as [L|L]; [|exact L]. apply Qlt_le_weak, Qle_bool_iff in L. congruence. }
    destruct K as (K1 & K2 & K3). destruct (IH (least x z)) as [I1 I2]. split.
    + destruct I1 as [I1|I1]; [rewrite <- I1; destruct K1 as [->| ->]; cbn; auto|right; now right].
    + pose proof (I2 _ (or_introl eq_refl)). intros y [<-|[<-|Hy]]; [lra|lra|apply I2; now right].
Qed.
Lemma greatest_right : forall l x, In (fold_left greatest l x) (x :: l) /\ forall y, In y (x :: l) -> (y <= fold_left greatest l x)%Q.
Proof.
  induction l as [|z l IH]; intros x; cbn [fold_left].
  - split; [now left|]. intros y [<-|[]]. lra.
  - assert (K : (greatest x z = x \/ greatest x z = z) /\ (x <= greatest x z)%Q /\ (z <= greatest x z)%Q).
    { unfold greatest. destruct (Qle_bool x z) eqn:E; [apply Qle_bool_iff in E; split; [now right|lra]|].
      split; [now left|]. split; [lra|]. destruct (Qlt_le_dec x z) as [L|L]; [|exact L]. apply Qlt_le_weak, Qle_bool_iff in L. congruence. }
    destruct K as (K1 & K2 & K3). destruct (IH (greatest x z)) as [I1 I2]. split.
    + destruct I1 as [I1|I1]; [rewrite <- I1; destruct K1 as [->| ->]; cbn; auto|right; now right].
    + pose proof (I2 _ (or_introl eq_refl)). intros y [<-|[<-|Hy]]; [lra|lra|apply I2; now right].
Qed.
Lemma mean_bounds lo hi : forall l, Forall (fun q => lo <= q <= hi)%Q l ->
  (lo * inject_Z (Z.of_nat (length l)) <= fold_right Qplus 0 l <= hi * inject_Z (Z.of_nat (length l)))%Q.
Proof.
  induction l as [|x l IH]; intros H; [cbn [length fold_right Z.of_nat]; change (inject_Z 0) with 0%Q; split; lra|]. apply Forall_cons_iff in H. destruct H as [[A B] H].
  specialize (IH H). cbn [length fold_right]. rewrite Nat2Z.inj_succ, <- Z.add_1_l, inject_Z_plus. change (inject_Z 1) with 1%Q. lra.
Qed.
Lemma mean_within lo hi l q : Forall (fun q => lo <= q <= hi)%Q l -> mean_is l q -> (lo <= q <= hi)%Q.
Proof.
  intros F [N E]. pose proof (mean_bounds lo hi l F) as [B1 B2]. rewrite <- E in B1, B2. destruct l as [|x l]; [contradiction|].
  pose proof (GStatsProofs.len_pos x l) as L. split; [apply (Qmult_le_r _ _ _ L)|apply (Qmult_le_r _ _ _ L)]; assumption.
Qed.
Lemma mean_flat l : l <> [] -> exists q, GStatsModel.np_mean (map Some l) = Some q /\ mean_is l q.
Proof.
  intros N. unfold GStatsModel.np_mean. rewrite GStatsProofs.all_some_map. destruct l as [|x l]; [contradiction|]. eexists. split; [reflexivity|].
  split; [discriminate|]. pose proof (GStatsProofs.len_pos x l). unfold TopModel.qsum. field. lra.
Qed.
Lemma entry_ok g qs : qs <> [] -> Forall2 (fun n q => dropout n = Ok (Some q)) (members g) qs ->
  exists lo mean hi, dropout_entry g = Ok (Some (lo, mean, hi)) /\ In lo qs /\ In hi qs /\ (forall q, In q qs -> lo <= q <= hi)%Q /\ mean_is qs mean /\ (lo <= mean <= hi)%Q.
Proof.
  intros N F. assert (E : mapM dropout (members g) = Ok (map Some qs)).
  { apply IdealProofs.mapM_F2. clear N. induction F as [|n q ns qs H _ IH]; constructor; assumption. }
  unfold dropout_entry. rewrite E. cbn [bind]. rewrite GStatsProofs.all_some_map. destruct (mean_flat qs N) as (q & Eq & M). rewrite Eq.
  destruct qs as [|x l]; [contradiction|]. cbn [map]. exists (fold_left least l x), q, (fold_left greatest l x). split; [reflexivity|].
  destruct (least_right l x) as [L1 L2]. destruct (greatest_right l x) as [G1 G2]. split; [exact L1|]. split; [exact G1|].
  assert (K : forall y, In y (x :: l) -> (fold_left least l x <= y <= fold_left greatest l x)%Q) by (intros y Hy; split; [now apply L2|now apply G2]).
  split; [exact K|]. split; [exact M|]. apply (mean_within _ _ (x :: l)); [|exact M]. now apply Forall_forall.
Qed.

(** The rate of a node lies within the rates of its meters. *)
Lemma node_rate lo hi n : Forall (fun m => exists q, rated m q /\ (lo <= q <= hi)%Q) (meters_in n) -> exists q, dropout n = Ok (Some q) /\ (lo <= q <= hi)%Q.
Proof.
  induction n as [m|f r IHf IHr] using node_ind'; cbn [meters_in dropout]; intros H.
  - inversion_clear H as [|? ? (q & E & B) _]. exists q. split; [exact E|exact B].
  - apply Forall_app in H. destruct H as [H1 H2]. destruct (IHf H1) as (q & E & B). rewrite E. cbn [bind].
    assert (X : exists qs, mapM (fun v => v) (map dropout r) = Ok (map Some qs) /\ Forall (fun q => lo <= q <= hi)%Q qs).
    { clear IHf E B H1. induction IHr as [|x r Hx _ IH]; cbn [map flat_map mapM] in *; [exists []; split; [reflexivity|constructor]|].
      apply Forall_app in H2. destruct H2 as [A1 A2]. destruct (Hx A1) as (y & Ey & Ly). destruct (IH A2) as (zs & Ez & Lz). rewrite Ey. cbn [bind]. rewrite Ez. cbn [bind].
      exists (y :: zs). split; [reflexivity|constructor; assumption]. }
    destruct X as (qs & Eq & Fq). rewrite Eq. cbn [bind]. destruct (mean_flat (q :: qs) ltac:(discriminate)) as (w & Ew & M). cbn [map] in Ew. rewrite Ew. exists w.
    split; [reflexivity|]. apply (mean_within _ _ (q :: qs)); [constructor; assumption|exact M].
Qed.
Lemma entry_bounds g lo hi : members g <> [] -> Forall (fun m => exists q, rated m q /\ (lo <= q <= hi)%Q) (meters_of g) ->
  exists a b c, dropout_entry g = Ok (Some (a, b, c)) /\ (lo <= a)%Q /\ (a <= b)%Q /\ (b <= c)%Q /\ (c <= hi)%Q.
Proof.
  intros N F. assert (X : exists qs, Forall2 (fun n q => dropout n = Ok (Some q)) (members g) qs /\ Forall (fun q => lo <= q <= hi)%Q qs).
  { unfold meters_of in F. clear N. induction (members g) as [|n l IH]; cbn [flat_map] in F; [exists []; split; constructor|].
    apply Forall_app in F. destruct F as [F1 F2]. destruct (IH F2) as (qs & A & B). destruct (node_rate lo hi n F1) as (q & E & K). exists (q :: qs). split; constructor; assumption. }
  destruct X as (qs & A & B). assert (Nq : qs <> []) by (intros ->; inversion A; congruence).
  destruct (entry_ok g qs Nq A) as (a & b & c & E & Ia & Ic & _ & _ & K). exists a, b, c. rewrite Forall_forall in B. pose proof (B a Ia). pose proof (B c Ic).
  split; [exact E|]. lra.
Qed.
Lemma nan_mean l : In None l -> GStatsModel.np_mean l = None /\ GStatsModel.all_some l = None.
Proof.
  intros H. assert (E : GStatsModel.all_some l = None). { induction l as [|[x|] l IH]; cbn; [destruct H| |reflexivity]. destruct H as [H|H]; [discriminate|]. rewrite (IH H). reflexivity. }
  unfold GStatsModel.np_mean. rewrite E. auto.
Qed.
Lemma node_nan n : (exists m, In m (meters_in n) /\ st_rate m = Ok None) -> forall v, dropout n = Ok v -> v = None.
Proof.
  induction n as [m|f r IHf IHr] using node_ind'; cbn [meters_in dropout]; intros (x & Hx & E) v.
  - destruct Hx as [<-|[]]. rewrite E. now intros [= <-].
  - destruct (dropout f) as [a|] eqn:Ef; cbn [bind]; [|discriminate]. destruct (mapM (fun v => v) (map dropout r)) as [xs|] eqn:Er; cbn [bind]; [|discriminate]. intros [= <-].
    apply nan_mean. apply in_app_or in Hx. destruct Hx as [Hx|Hx]; [left; apply (IHf (ex_intro _ x (conj Hx E)) a eq_refl)|]. right.
    clear IHf Ef. revert xs Er Hx. induction IHr as [|y r Hy _ IH]; intros xs Er Hx; [destruct Hx|]. cbn [map mapM flat_map] in *.
    destruct (dropout y) as [b|] eqn:Ey; cbn [bind] in Er; [|discriminate]. destruct (mapM (fun v => v) (map dropout r)) as [ys|]; cbn [bind] in Er; [|discriminate]. injection Er as <-.
    apply in_app_or in Hx. destruct Hx as [Hx|Hx]; [left; apply (Hy (ex_intro _ x (conj Hx E)) b eq_refl)|right; now apply IH].
Qed.
Lemma entry_nan g d : (exists m, In m (meters_of g) /\ st_rate m = Ok None) -> dropout_entry g = Ok d -> d = None.
Proof.
  intros (m & Hm & E) H. unfold dropout_entry in H. destruct (mapM dropout (members g)) as [xs|] eqn:Ex; cbn [bind] in H; [|discriminate].
  assert (K : In None xs).
  { unfold meters_of in Hm. clear H. revert xs Ex Hm. induction (members g) as [|y r IH]; intros xs Ex Hx; [destruct Hx|]. cbn [mapM flat_map] in *.
    destruct (dropout y) as [b|] eqn:Ey; cbn [bind] in Ex; [|discriminate]. destruct (mapM dropout r) as [ys|]; cbn [bind] in Ex; [|discriminate]. injection Ex as <-.
    apply in_app_or in Hx. destruct Hx as [Hx|Hx]; [left; apply (node_nan y (ex_intro _ m (conj Hx E)) b Ey)|right; now apply IH]. }
  destruct (nan_mean xs K) as [_ E2]. rewrite E2 in H. destruct xs; [destruct K|]. now injection H as <-.
Qed.

(** ** Success and failure *)
Lemma filter_some {A} (f : A -> bool) l x : In x l -> f x = true -> exists y r, filter f l = y :: r.
Proof. intros H E. destruct (filter f l) as [|y r] eqn:F; [|eauto]. assert (X : In x (filter f l)) by (apply filter_In; auto). rewrite F in X. destruct X. Qed.

Lemma rates_bound (ms : list stored) : Forall (fun m => exists q, rated m q) ms -> exists lo hi, Forall (fun m => exists q, rated m q /\ (lo <= q <= hi)%Q) ms.
Proof.
  induction 1 as [|m ms (q & E) _ (lo & hi & F)]; [exists 0%Q, 0%Q; constructor|]. exists (least lo q), (greatest q hi).
  assert (A : (least lo q <= lo /\ least lo q <= q)%Q). { destruct (least_right [q] lo) as [_ H]. cbn [fold_left] in H. split; apply H; cbn; auto. }
  assert (B : (q <= greatest q hi /\ hi <= greatest q hi)%Q). { destruct (greatest_right [hi] q) as [_ H]. cbn [fold_left] in H. split; apply H; cbn; auto. }
  constructor; [exists q; split; [exact E|lra]|]. eapply Forall_impl; [|exact F]. intros x (y & Ey & K). exists y. split; [exact Ey|lra].
Qed.
Lemma expensive_ok {C P} (stats : option (res C * res P)) g : members g <> [] ->
  at_hand stats g ->
  exists e, expensive_part stats g = Ok e.
Proof.
  intros N H. unfold at_hand in H. destruct stats as [[x y]|]; [|cbn; eauto]. destruct H as ((v & ->) & (w & ->) & R). cbn [expensive_part bind].
  destruct (rates_bound _ R) as (lo & hi & F). destruct (entry_bounds g lo hi N F) as (a & b & c & E & _). rewrite E. cbn [bind]. eauto.
Qed.

Lemma chosen_complement l : chosen (fun n => ~ on_mains n) l (filter (fun n => negb (is_site n)) l).
Proof.
  induction l as [|x l IH]; cbn [filter]; [constructor|]. destruct (is_site x) eqn:E; cbn [negb].
  - apply chosen_out; [|exact IH]. intros H. apply H. now apply site_iff.
  - constructor; [|exact IH]. rewrite <- site_iff, E. discriminate.
Qed.

Lemma works {C P} c (stats : option (res C * res P)) g sites subs : (1 <= c)%nat -> one_building g -> Forall sound (meters_of g) -> Forall known (meters_of g) ->
  chosen on_mains (members g) sites -> sites <> [] -> Forall uses (flat_map meters_in sites) -> chosen (fun n => ~ on_mains n) (members g) subs -> subs <> [] ->
  at_hand stats g ->
  exists s y z, describe c stats g = Ok s /\ mains_sample_period s = Some y /\ longest_period (flat_map meters_in sites) y /\
    submeter_sample_period s = Some z /\ longest_period (flat_map meters_in subs) z.
Proof.
  intros Hc O F K Hs Ns U Hb Nb St. pose proof (chosen_unique _ _ _ Hs _ (chosen_filter _)) as Es. pose proof (chosen_unique _ _ _ Hb _ (chosen_complement _)) as Eb.
  assert (Nm : members g <> []) by (intros Nm; rewrite Nm in Es; cbn in Es; contradiction).
  assert (SB : several_buildings g = false). { destruct (several_buildings g) eqn:E; [|reflexivity]. apply several_iff in E. contradiction. }
  destruct (expensive_ok stats g Nm St) as (e & Ee). destruct (timeframe_ok g Nm F) as (u & a & b & T & (B1 & B2 & B3 & B4) & _).
  destruct sites as [|n l]; [contradiction|]. symmetry in Es.
  set (M := match l with [] => n | _ => Many n l end).
  assert (EM : meters_in M = flat_map meters_in (n :: l)) by (unfold M; destruct l; cbn [meters_in flat_map]; [now rewrite app_nil_r|reflexivity]).
  assert (IM : forall m, In m (meters_in M) -> In m (meters_of g)) by (rewrite EM; exact (mains_members g n l Es)).
  rewrite Forall_forall in F, K. assert (KM : Forall known (meters_in M)) by (apply Forall_forall; intros m Hm; apply K; now apply IM).
  assert (FM : Forall sound (meters_in M)) by (apply Forall_forall; intros m Hm; apply F; now apply IM).
  destruct (node_period M KM) as (y & Ey & Ly). rewrite EM in Ly.
  assert (KS : Forall known (flat_map meters_in subs)). { apply Forall_forall. intros m Hm. apply K. apply in_flat_map in Hm. destruct Hm as (x & Hx & Hm). apply in_flat_map. exists x. split; [exact (chosen_incl _ _ _ Hb x Hx)|exact Hm]. }
  destruct (nodes_period subs Nb KS) as (z & xs & Ez & Ez2 & Lz). destruct (meters_first M) as (m & ms & Em).
  assert (Sm : sound m) by (apply F, IM; rewrite Em; now left).
  rewrite <- EM in U. destruct (node_energy c M Hc FM U) as (q & es & Eq & _).
  unfold describe. cbv zeta. rewrite Ee. cbn [bind]. rewrite !(of_mains_ok g _ n l SB Es). fold M. rewrite Ey. cbn [bind]. unfold submeter_period, submeters. rewrite <- Eb, Ez. cbn [bind]. rewrite Ez2. cbn [bind].
  rewrite T. cbn [bind]. unfold average_energy. rewrite (good_first c M m ms Em), (sound_uptime c m Hc Sm). cbn [bind].
  assert (Td : tf_timedelta u = Some (b - a)) by (unfold tf_timedelta; rewrite B1, B2; reflexivity). rewrite Td. unfold uptime_share. destruct (b - a =? 0); cbn [bind];
    (destruct (covered (st_msp m) (times m) =? 0); [|rewrite Eq]; cbn [bind]; eexists; exists y, z; (split; [reflexivity|]); cbn; auto).
Qed.

Lemma no_mains {C P} c g : one_building g -> (forall n, In n (members g) -> ~ on_mains n) -> @describe C P c None g = Err AttributeError.
Proof.
  intros O H. unfold describe. cbn [expensive_part bind]. unfold of_mains at 1, mains.
  assert (SB : several_buildings g = false). { destruct (several_buildings g) eqn:E; [|reflexivity]. apply several_iff in E. contradiction. } rewrite SB. cbn [bind].
  assert (E : filter is_site (members g) = []). { induction (members g) as [|x l IH]; [reflexivity|]. cbn [filter]. destruct (is_site x) eqn:E; [exfalso; apply (H x (or_introl eq_refl)); now apply site_iff|]. apply IH. intros n Hn. apply H. now right. }
  rewrite E. reflexivity.
Qed.
Lemma only_mains {C P} c g : one_building g -> Forall known (meters_of g) -> members g <> [] -> (forall n, In n (members g) -> on_mains n) -> @describe C P c None g = Err ValueError.
Proof.
  intros O K N H. unfold describe. cbn [expensive_part bind].
  assert (SB : several_buildings g = false). { destruct (several_buildings g) eqn:E; [|reflexivity]. apply several_iff in E. contradiction. }
  assert (E : filter is_site (members g) = members g /\ submeters g = []).
  { unfold submeters. clear N O K SB. induction (members g) as [|x l IH]; [auto|]. cbn [filter]. assert (E : is_site x = true) by (apply site_iff; apply H; now left). rewrite E. cbn [negb].
    destruct IH as [-> ->]; [intros n Hn; apply H; now right|auto]. }
  destruct E as [E1 E2]. destruct (members g) as [|n l] eqn:Em; [contradiction|]. rewrite (of_mains_ok g _ n l SB) by (rewrite Em; exact E1).
  destruct (node_period (match l with [] => n | _ => Many n l end)) as (y & Ey & _).
  { unfold meters_of in K. rewrite Em in K. cbn [flat_map] in K. destruct l; [cbn [flat_map] in K; rewrite app_nil_r in K; exact K|exact K]. }
  rewrite Ey. cbn [bind]. unfold submeter_period. rewrite E2. reflexivity.
Qed.
Lemma buildings {C P} c g : ~ one_building g -> @describe C P c None g = Err RuntimeError.
Proof. intros H. unfold describe. cbn [expensive_part bind]. unfold of_mains at 1, mains. apply several_iff in H. rewrite H. reflexivity. Qed.

Lemma only_counted {C P} c (stats : option (res C * res P)) g d s : describe c stats g = Ok s -> exists s', describe c stats (mkGroup (members g) d) = Ok s' /\
  expensive s' = expensive s /\ mains_sample_period s' = mains_sample_period s /\ submeter_sample_period s' = submeter_sample_period s /\
  frame_start s' = frame_start s /\ frame_end s' = frame_end s /\ total_duration s' = total_duration s /\ mains_uptime s' = mains_uptime s /\
  proportion_uptime s' = proportion_uptime s /\ average_mains_energy_per_day s' = average_mains_energy_per_day s.
Proof.
  intros H. apply describe_inv in H. destruct H as (exp & mp & sp & t & up & share & avg & E1 & E2 & E3 & E4 & E5 & E6 & E7 & ->).
  set (g' := mkGroup (members g) d).
  assert (A1 : expensive_part stats g' = Ok exp) by exact E1. assert (A2 : of_mains g' sample_period = Ok mp) by exact E2. assert (A3 : submeter_period g' = Ok sp) by exact E3.
  assert (A4 : timeframe g' = Ok (Some t)) by exact E4. assert (A5 : of_mains g' (fun n => uptime_of (good c n)) = Ok up) by exact E5.
  assert (A7 : of_mains g' (fun n => average_energy false true (good c n) (Err AttributeError) (energy c n) day) = Ok avg) by exact E7.
  unfold describe. cbv zeta. rewrite A1. cbn [bind]. rewrite A2. cbn [bind]. rewrite A3. cbn [bind]. rewrite A4. cbn [bind]. rewrite A5. cbn [bind]. rewrite E6. cbn [bind]. rewrite A7. cbn [bind].
  eexists. split; [reflexivity|]. cbn. auto 10.
Qed.

Lemma expensive_inv {C P} c (x : res C) (y : res P) g s : describe c (Some (x, y)) g = Ok s ->
  exists v w d, x = Ok v /\ y = Ok w /\ dropout_entry g = Ok d /\ expensive s = Some (v, w, d) /\ members g <> [].
Proof.
  intros H. apply describe_inv in H. destruct H as (exp & mp & sp & t & up & share & avg & E & M & _ & _ & _ & _ & _ & ->). cbn [expensive expensive_part] in *.
  destruct x as [v|]; cbn [bind] in E; [|discriminate]. destruct y as [w|]; cbn [bind] in E; [|discriminate]. destruct (dropout_entry g) as [d|]; cbn [bind] in E; [|discriminate].
  injection E as <-. exists v, w, d. do 4 (split; [reflexivity|]). intros N. apply of_mains_inv in M. destruct M as (_ & n & l & M & F & _). rewrite N in F. discriminate.
Qed.
Lemma rates_flat {C P} c (x : res C) (y : res P) g s ms qs : describe c (Some (x, y)) g = Ok s -> members g = map Meter ms -> Forall2 rated ms qs ->
  exists v w lo mean hi, x = Ok v /\ y = Ok w /\ expensive s = Some (v, w, Some (lo, mean, hi)) /\ In lo qs /\ In hi qs /\ (forall q, In q qs -> lo <= q <= hi)%Q /\ mean_is qs mean /\ (lo <= mean <= hi)%Q.
Proof.
  intros H E F. destruct (expensive_inv c x y g s H) as (v & w & d & Ex & Ey & Ed & Es & N). exists v, w.
  destruct (entry_ok g qs) as (lo & mean & hi & Eq & K).
  - intros ->. inversion F; subst. now rewrite E in N.
  - rewrite E. clear E N. induction F as [|m q ms qs R _ IH]; cbn [map]; constructor; assumption.
  - rewrite Ed in Eq. injection Eq as ->. exists lo, mean, hi. auto.
Qed.
Lemma rates_tree {C P} c (x : res C) (y : res P) g s lo hi : describe c (Some (x, y)) g = Ok s -> Forall (fun m => exists q, rated m q /\ (lo <= q <= hi)%Q) (meters_of g) ->
  exists v w a b d, expensive s = Some (v, w, Some (a, b, d)) /\ (lo <= a)%Q /\ (a <= b)%Q /\ (b <= d)%Q /\ (d <= hi)%Q.
Proof.
  intros H F. destruct (expensive_inv c x y g s H) as (v & w & d & _ & _ & Ed & Es & N). destruct (entry_bounds g lo hi N F) as (a & b & e & Eq & K).
  rewrite Ed in Eq. injection Eq as ->. exists v, w, a, b, e. auto.
Qed.
Lemma rates_nan {C P} c (x : res C) (y : res P) g s : describe c (Some (x, y)) g = Ok s -> (exists m, In m (meters_of g) /\ st_rate m = Ok None) ->
  exists v w, expensive s = Some (v, w, None).
Proof. intros H F. destruct (expensive_inv c x y g s H) as (v & w & d & _ & _ & Ed & Es & _). rewrite (entry_nan g d F Ed) in Es. eauto. Qed.
