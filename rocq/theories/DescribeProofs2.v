(** Proofs about the summary of a group: its entries. *)
From Coq Require Import QArith Lqa Lia.
From Verif Require Import Base TimeFrameModel TimeFrameSpec StoreModel StoreSpec EnergyModel EnergySpec AvgModel AvgSpec AvgProofs EnergyProofs EnergyProofs2 DescribeModel DescribeSpec DescribeProofs.
From Verif Require GStatsModel GStatsSpec GStatsProofs GroupModel GroupProofs IdealProofs.
Import List. Open Scope Z_scope.

Lemma of_mains_inv {A} g (f : node -> res A) v : of_mains g f = Ok v -> several_buildings g = false /\
  exists n l M, filter is_site (members g) = n :: l /\ f M = Ok v /\ meters_in M = meters_in n ++ flat_map meters_in l /\
    M = match l with [] => n | _ => Many n l end.
Proof.
  unfold of_mains, mains. destruct (several_buildings g); [discriminate|]. cbn [bind]. split; [reflexivity|].
  destruct (filter is_site (members g)) as [|n [|x l]]; [discriminate| |].
  - exists n, [], n. split; [reflexivity|]. split; [assumption|]. split; [cbn; now rewrite app_nil_r|reflexivity].
  - exists n, (x :: l), (Many n (x :: l)). auto.
Qed.
Lemma of_mains_ok {A} g (f : node -> res A) n l : several_buildings g = false -> filter is_site (members g) = n :: l ->
  of_mains g f = f (match l with [] => n | _ => Many n l end).
Proof. intros H E. unfold of_mains, mains. rewrite H, E. destruct l; reflexivity. Qed.

Lemma describe_inv {C P} c (stats : option (res C * res P)) g s : describe c stats g = Ok s ->
  exists exp mp sp t up share avg, expensive_part stats g = Ok exp /\ of_mains g sample_period = Ok mp /\ submeter_period g = Ok sp /\
    timeframe g = Ok (Some t) /\ of_mains g (fun n => uptime_of (good c n)) = Ok up /\ uptime_share up (tf_timedelta t) = Ok share /\
    of_mains g (fun n => average_energy false true (good c n) (Err AttributeError) (energy c n) day) = Ok avg /\
    s = mkSummary C P (length (members g ++ disabled g)) (length (filter is_site (members g ++ disabled g))) exp mp sp (tf_start t) (tf_end t) (tf_timedelta t) up share avg.
Proof.
  unfold describe. cbv zeta. destruct (expensive_part stats g) as [exp|]; cbn [bind]; [|discriminate]. destruct (of_mains g sample_period) as [mp|]; cbn [bind]; [|discriminate].
  destruct (submeter_period g) as [sp|]; cbn [bind]; [|discriminate]. destruct (timeframe g) as [[t|]|]; cbn [bind]; [|discriminate|discriminate].
  destruct (of_mains g (fun n => uptime_of (good c n))) as [up|]; cbn [bind]; [|discriminate]. destruct (uptime_share up (tf_timedelta t)) as [share|] eqn:E; cbn [bind]; [|discriminate].
  destruct (of_mains g _) as [avg|]; cbn [bind]; [|discriminate]. intros [= <-]. exists exp, mp, sp, t, up, share, avg. auto 10.
Qed.

Lemma counts {C P} c (stats : option (res C * res P)) g s : describe c stats g = Ok s ->
  total_n_meters s = (length (members g) + length (disabled g))%nat /\
  exists l, chosen on_mains (members g ++ disabled g) l /\ total_n_site_meters s = length l.
Proof.
  intros H. apply describe_inv in H. destruct H as (exp & mp & sp & t & up & share & avg & _ & _ & _ & _ & _ & _ & _ & ->). cbn [total_n_meters total_n_site_meters].
  split; [apply app_length|]. eexists. split; [apply chosen_filter|reflexivity].
Qed.

Lemma mains_members g n l : filter is_site (members g) = n :: l -> forall m, In m (meters_in n ++ flat_map meters_in l) -> In m (meters_of g).
Proof.
  intros E m Hm. unfold meters_of. change (meters_in n ++ flat_map meters_in l) with (flat_map meters_in (n :: l)) in Hm. rewrite <- E in Hm.
  apply in_flat_map in Hm. destruct Hm as (x & Hx & Hm). apply filter_In in Hx. apply in_flat_map. exists x. tauto.
Qed.


Lemma uptime_right {C P} c (stats : option (res C * res P)) g s : (1 <= c)%nat -> Forall sound (meters_of g) -> describe c stats g = Ok s ->
  exists m a b p, first_mains g m /\ In m (meters_of g) /\ first_instant (meters_of g) a /\ last_instant (meters_of g) b /\ a < b /\
    frame_start s = Some a /\ frame_end s = Some b /\ total_duration s = Some (b - a) /\
    mains_uptime s = covered (st_msp m) (times m) /\ proportion_uptime s = Some p /\
    (p * inject_Z (b - a) == inject_Z (mains_uptime s))%Q /\ (0 <= p <= 1)%Q.
Proof.
  intros Hc F H. apply describe_inv in H. destruct H as (exp & mp & sp & t & up & share & avg & _ & _ & _ & T & U & S & _ & ->).
  cbn [frame_start frame_end total_duration mains_uptime proportion_uptime].
  apply of_mains_inv in U. destruct U as (_ & n & l & M & E & U & EM & _).
  assert (N : members g <> []) by (intros N; rewrite N in E; discriminate).
  destruct (timeframe_ok g N F) as (u & a & b & T' & B & Fa & Fb). rewrite T in T'. injection T' as ->. destruct B as (B1 & B2 & B3 & B4).
  destruct (meters_first n) as (m & ms & En). assert (Em : meters_in M = m :: (ms ++ flat_map meters_in l)) by (rewrite EM, En; reflexivity).
  assert (Hm : In m (meters_of g)) by (apply (mains_members g n l E); rewrite En; now left).
  assert (Sm : sound m) by (rewrite Forall_forall in F; now apply F).
  rewrite (good_first c M m _ Em), (sound_uptime c m Hc Sm) in U. injection U as <-.
  assert (Td : tf_timedelta u = Some (b - a)) by (unfold tf_timedelta; rewrite B1, B2; reflexivity). rewrite Td in *. unfold uptime_share in S.
  destruct (Z.eqb_spec (b - a) 0) as [Z0|_]; [lia|]. injection S as <-.
  exists m, a, b. eexists. split; [exists n, l, ms; split; [rewrite <- E; apply chosen_filter|exact En]|].
  do 8 (split; [assumption || reflexivity|]). split; [reflexivity|].
  destruct (sound_ends m Sm) as (x & z & Hx & Hz & _ & Ix & Iz & _). destruct (sound_covered m x z Sm Hx Hz) as [K _].
  pose proof (proj2 Fa m (fst x) Hm Ix). pose proof (proj2 Fb m (fst z) Hm Iz).
  set (k := covered (st_msp m) (times m)) in *. assert (D : (0 < inject_Z (b - a))%Q) by (change 0%Q with (inject_Z 0); rewrite <- Zlt_Qlt; lia).
  split; [field; lra|]. split; [apply Qle_shift_div_l; [exact D|]|apply Qle_shift_div_r; [exact D|]]; [setoid_replace (0 * inject_Z (b - a))%Q with (inject_Z 0) by (unfold inject_Z; ring)|setoid_replace (1 * inject_Z (b - a))%Q with (inject_Z (b - a)) by ring];
    rewrite <- Zle_Qle; lia.
Qed.

Lemma first_mains_fun g m m' : first_mains g m -> first_mains g m' -> m = m'.
Proof. intros (n & l & ms & A & B) (n' & l' & ms' & A' & B'). pose proof (chosen_unique _ _ _ A _ A') as E. injection E as -> _. rewrite B in B'. now injection B'. Qed.
Lemma instant_fun ms a a' : first_instant ms a -> first_instant ms a' -> a = a'.
Proof. intros [(m & H1 & H2) A] [(m' & H1' & H2') A']. pose proof (A m' a' H1' H2'). pose proof (A' m a H1 H2). lia. Qed.
Lemma last_instant_fun ms a a' : last_instant ms a -> last_instant ms a' -> a = a'.
Proof. intros [(m & H1 & H2) A] [(m' & H1' & H2') A']. pose proof (A m' a' H1' H2'). pose proof (A' m a H1 H2). lia. Qed.

Lemma always_up {C P} c (stats : option (res C * res P)) g s m a b : (1 <= c)%nat -> Forall sound (meters_of g) -> describe c stats g = Ok s ->
  first_mains g m -> first_instant (meters_of g) a -> last_instant (meters_of g) b ->
  ((exists p, proportion_uptime s = Some p /\ (p == 1)%Q) <-> In a (times m) /\ In b (times m) /\ gaps (st_msp m) (times m) = 0).
Proof.
  intros Hc F H Fm Fa Fb. destruct (uptime_right c stats g s Hc F H) as (m' & a' & b' & p & Fm' & Hm & Fa' & Fb' & L & _ & _ & _ & U & Ep & E & _).
  rewrite (first_mains_fun _ _ _ Fm' Fm) in *. rewrite (instant_fun _ _ _ Fa' Fa) in *. rewrite (last_instant_fun _ _ _ Fb' Fb) in *. clear Fm' Fa' Fb' m' a' b'. rewrite U in E.
  assert (Sm : sound m) by (rewrite Forall_forall in F; now apply F).
  destruct (sound_ends m Sm) as (x & z & Hx & Hz & _ & Ix & Iz & In_). destruct (sound_covered m x z Sm Hx Hz) as [K1 K2].
  pose proof (proj2 Fa m (fst x) Hm Ix). pose proof (proj2 Fb m (fst z) Hm Iz). split.
  - intros (q & Eq & Q1). rewrite Ep in Eq. injection Eq as <-. rewrite Q1 in E. assert (b - a = covered (st_msp m) (times m)).
    { rewrite Qmult_1_l in E. unfold Qeq, inject_Z in E. cbn [Qnum Qden] in E. lia. }
    assert (fst x = a) by lia. assert (fst z = b) by lia. subst a b. split; [exact Ix|]. split; [exact Iz|]. apply K2. lia.
  - intros (Ia & Ib & G). exists p. split; [exact Ep|]. apply K2 in G. pose proof (In_ a Ia). pose proof (In_ b Ib).
    assert (Eq : covered (st_msp m) (times m) = b - a) by lia. rewrite Eq in E.
    assert (D : ~ (inject_Z (b - a) == 0)%Q) by (unfold Qeq, inject_Z; cbn [Qnum Qden]; lia). apply (Qmult_inj_r _ _ _ D). rewrite E. ring.
Qed.

(** ** Energy *)
Lemma sound_energy c m : (1 <= c)%nat -> sound m -> uses m ->
  exists e, meter_energy (st_columns m) (st_rows m) (st_msp m) (st_ac m) c = Ok (inject_Z e) /\ consumed m e.
Proof.
  intros Hc (H0 & Hi & H2 & Hp) (s & k & Hu & Hr). destruct (whole_energy (st_columns m) (st_rows m) (st_msp m) (st_ac m) k s c H0 Hi H2 Hu Hr Hc) as (e & E & J).
  exists e. split; [exact E|]. exists s. split; [exists k; auto|]. rewrite J. apply joules_is_energy; [exact H0|]. exact (readings_increasing k _ s Hr Hi).
Qed.

Lemma fold_sum : forall l x, (fold_left Qplus l x == x + fold_right Qplus 0 l)%Q.
Proof. induction l as [|y l IH]; intros x; cbn [fold_left fold_right]; [ring|]. rewrite IH. ring. Qed.
Lemma sum_app a b : sumZ (a ++ b) = sumZ a + sumZ b.
Proof. induction a as [|x a IH]; cbn [app sumZ]; [reflexivity|]. rewrite IH. lia. Qed.

Lemma node_energy c n : (1 <= c)%nat -> Forall sound (meters_in n) -> Forall uses (meters_in n) ->
  exists q es, energy c n = Ok q /\ Forall2 consumed (meters_in n) es /\ (q == inject_Z (sumZ es))%Q.
Proof.
  intros Hc. induction n as [m|f r IHf IHr] using node_ind'; cbn [meters_in energy]; intros F U.
  - inversion_clear F as [|? ? S _]. inversion_clear U as [|? ? V _]. destruct (sound_energy c m Hc S V) as (e & E & K). exists (inject_Z e), [e].
    split; [exact E|]. split; [repeat constructor; exact K|]. cbn [sumZ]. rewrite Z.add_0_r. reflexivity.
  - apply Forall_app in F. destruct F as [F1 F2]. apply Forall_app in U. destruct U as [U1 U2]. destruct (IHf F1 U1) as (q & es & E & K & S). rewrite E. cbn [bind].
    assert (X : exists qs fs, mapM (fun v => v) (map (energy c) r) = Ok qs /\ Forall2 consumed (flat_map meters_in r) fs /\ (fold_right Qplus 0 qs == inject_Z (sumZ fs))%Q).
    { clear IHf E K S F1 U1. induction IHr as [|x r Hx _ IH]; cbn [map flat_map mapM] in *; [exists [], []; repeat split; constructor|].
      apply Forall_app in F2. destruct F2 as [Fx Fr]. apply Forall_app in U2. destruct U2 as [Ux Ur]. destruct (Hx Fx Ux) as (q1 & e1 & E1 & K1 & S1). destruct (IH Fr Ur) as (qs & fs & E2 & K2 & S2).
      rewrite E1. cbn [bind]. rewrite E2. cbn [bind]. exists (q1 :: qs), (e1 ++ fs). split; [reflexivity|]. split; [now apply Forall2_app|].
      cbn [fold_right]. rewrite S1, S2, sum_app, inject_Z_plus. reflexivity. }
    destruct X as (qs & fs & E2 & K2 & S2). rewrite E2. cbn [bind]. eexists. exists (es ++ fs). split; [reflexivity|]. split; [now apply Forall2_app|].
    rewrite fold_sum, S, S2, sum_app, inject_Z_plus. reflexivity.
Qed.

Lemma average_right {C P} c (stats : option (res C * res P)) g s l : (1 <= c)%nat -> Forall sound (meters_of g) -> chosen on_mains (members g) l ->
  Forall uses (flat_map meters_in l) -> describe c stats g = Ok s ->
  (mains_uptime s = 0 /\ average_mains_energy_per_day s = None) \/
  (0 < mains_uptime s /\ exists q es, average_mains_energy_per_day s = Some q /\ Forall2 consumed (flat_map meters_in l) es /\
     (q * inject_Z (mains_uptime s) == inject_Z (sumZ es) * 86400)%Q).
Proof.
  intros Hc F Hl U H. destruct (uptime_right c stats g s Hc F H) as (m & a & b & p & Fm & Hm & _ & _ & _ & _ & _ & _ & Um & _).
  apply describe_inv in H. destruct H as (exp & mp & sp & t & up & share & avg & _ & _ & _ & _ & Up & _ & A & ->). cbn [mains_uptime average_mains_energy_per_day] in *.
  apply of_mains_inv in A. destruct A as (_ & n & l' & M & E & A & EM & HM). pose proof (chosen_filter (members g)) as X. rewrite E in X.
  rewrite <- (chosen_unique _ _ _ X _ Hl) in U |- *. cbn [flat_map] in *. rewrite <- EM in *.
  apply of_mains_inv in Up. destruct Up as (_ & n2 & l2 & M2 & E2 & Up & _ & HM2). rewrite E in E2. injection E2 as <- <-. assert (EE : M = M2) by congruence. rewrite <- EE in Up. clear EE HM HM2.
  assert (SM : Forall sound (meters_in M)). { rewrite Forall_forall in F |- *. intros y Hy. apply F. rewrite EM in Hy. exact (mains_members g n l' E y Hy). }
  unfold average_energy in A. rewrite Up in A. cbn [bind] in A.
  assert (0 <= up). { rewrite Um. rewrite Forall_forall in F. destruct (sound_ends m (F m Hm)) as (x & z & Hx & Hz & _). now apply (sound_covered m x z (F m Hm)). }
  destruct (Z.eqb_spec up 0) as [->|N]; [left; injection A as <-; auto|]. right. split; [lia|].
  destruct (node_energy c M Hc SM U) as (q & es & Eq & K & S). rewrite Eq in A. cbn [bind] in A. injection A as <-. eexists. exists es. split; [reflexivity|]. split; [exact K|].
  rewrite S. change 86400%Q with (inject_Z 86400). apply div_div; [lia|reflexivity].
Qed.

(** ** Sample periods *)
Lemma max_right : forall l x, exists z, foldM max_step (map Some l) (Some x) = Ok (Some z) /\ In z (x :: l) /\ forall y, In y (x :: l) -> y <= z.
Proof.
  induction l as [|y l IH]; intros x; cbn [map foldM].
  - exists x. split; [reflexivity|]. split; [now left|]. intros y [<-|[]]. lia.
  - cbn [max_step bind]. destruct (IH (Z.max x y)) as (z & E & I1 & I2). exists z. split; [exact E|]. split.
    + destruct I1 as [<-|I1]; [|right; now right]. destruct (Z.max_spec x y) as [[_ ->]|[_ ->]]; [right; now left|now left].
    + intros w [<-|[<-|Hw]]; [| |apply I2; now right]; specialize (I2 (Z.max x y) (or_introl eq_refl)); lia.
Qed.

Lemma longest_join : forall (ns : list node) zs, Forall2 (fun n z => longest_period (meters_in n) z) ns zs -> forall z, In z zs -> (forall y, In y zs -> y <= z) ->
  longest_period (flat_map meters_in ns) z.
Proof.
  intros ns zs F z Hz M. split.
  - clear M. induction F as [|n y ns zs H _ IH]; [destruct Hz|]. cbn [flat_map]. destruct Hz as [->|Hz].
    + destruct H as [(m & Hm & E) _]. exists m. split; [apply in_or_app; now left|exact E].
    + destruct (IH Hz) as (m & Hm & E). exists m. split; [apply in_or_app; now right|exact E].
  - clear Hz. induction F as [|n y ns zs H _ IH]; cbn [flat_map]; intros m w Hm E; [destruct Hm|]. apply in_app_or in Hm. destruct Hm as [Hm|Hm].
    + destruct H as [_ H]. specialize (H m w Hm E). specialize (M y (or_introl eq_refl)). lia.
    + apply (IH (fun v Hv => M v (or_intror Hv)) m w Hm E).
Qed.
Lemma node_period n : Forall known (meters_in n) -> exists z, sample_period n = Ok (Some z) /\ longest_period (meters_in n) z.
Proof.
  induction n as [m|f r IHf IHr] using node_ind'; cbn [meters_in sample_period]; intros K.
  - inversion_clear K as [|? ? K1 _]. unfold known in K1. destruct (st_period m) as [z|] eqn:E; [|contradiction]. exists z. split; [reflexivity|].
    split; [exists m; split; [now left|exact E]|]. intros m' y [<-|[]] E'. rewrite E in E'. injection E' as ->. lia.
  - apply Forall_app in K. destruct K as [K1 K2]. destruct (IHf K1) as (z & E & L). rewrite E. cbn [bind].
    assert (X : exists zs, mapM (fun v => v) (map sample_period r) = Ok (map Some zs) /\ Forall2 (fun n z => longest_period (meters_in n) z) r zs).
    { clear IHf E L K1. induction IHr as [|x r Hx _ IH]; cbn [map flat_map mapM] in *; [exists []; split; [reflexivity|constructor]|].
      apply Forall_app in K2. destruct K2 as [Kx Kr]. destruct (Hx Kx) as (y & Ey & Ly). destruct (IH Kr) as (zs & Ez & Lz). rewrite Ey. cbn [bind]. rewrite Ez. cbn [bind].
      exists (y :: zs). split; [reflexivity|constructor; assumption]. }
    destruct X as (zs & Ez & Lz). rewrite Ez. cbn [bind py_max]. destruct (max_right zs z) as (w & Ew & I1 & I2). exists w. split; [exact Ew|].
    change (meters_in f ++ flat_map meters_in r) with (flat_map meters_in (f :: r)). apply (longest_join (f :: r) (z :: zs)); [constructor; assumption|exact I1|exact I2].
Qed.
Lemma nodes_period ns : ns <> [] -> Forall known (flat_map meters_in ns) ->
  exists z xs, mapM sample_period ns = Ok xs /\ py_max xs = Ok (Some z) /\ longest_period (flat_map meters_in ns) z.
Proof.
  intros N K. assert (X : exists zs, mapM sample_period ns = Ok (map Some zs) /\ Forall2 (fun n z => longest_period (meters_in n) z) ns zs).
  { clear N. induction ns as [|x r IH]; cbn [flat_map mapM] in *; [exists []; split; [reflexivity|constructor]|]. apply Forall_app in K. destruct K as [Kx Kr].
    destruct (node_period x Kx) as (y & Ey & Ly). destruct (IH Kr) as (zs & Ez & Lz). rewrite Ey. cbn [bind]. rewrite Ez. cbn [bind]. exists (y :: zs). split; [reflexivity|constructor; assumption]. }
  destruct X as (zs & Ez & Lz). destruct zs as [|z zs]; [inversion Lz; subst; contradiction|]. destruct (max_right zs z) as (w & Ew & I1 & I2).
  exists w, (map Some (z :: zs)). split; [exact Ez|]. split; [exact Ew|]. now apply (longest_join ns (z :: zs)).
Qed.

(** ** Buildings *)
Lemma node_building n : (exists b, building n = GroupModel.BOne b /\ forall m, In m (meters_in n) -> st_building m = b) \/
  (building n = GroupModel.BMany /\ exists m m', In m (meters_in n) /\ In m' (meters_in n) /\ st_building m <> st_building m').
Proof.
  induction n as [m|f r IHf IHr] using node_ind'; cbn [building meters_in].
  - left. exists (st_building m). split; [reflexivity|]. intros x [<-|[]]. reflexivity.
  - change (meters_in f ++ flat_map meters_in r) with (flat_map meters_in (f :: r)). change (building f :: map building r) with (map building (f :: r)).
    assert (F : Forall (fun n => (exists b, building n = GroupModel.BOne b /\ forall m, In m (meters_in n) -> st_building m = b) \/
      (building n = GroupModel.BMany /\ exists m m', In m (meters_in n) /\ In m' (meters_in n) /\ st_building m <> st_building m')) (f :: r)) by (constructor; assumption).
    assert (N : f :: r <> []) by discriminate. clear IHf IHr. revert F N. generalize (f :: r). clear f r. intros l F N.
    assert (HN : Forall (fun v => v <> GroupModel.BNone) (map building l)).
    { apply Forall_map. eapply Forall_impl; [|exact F]. intros n [(b & -> & _)|[-> _]]; discriminate. }
    destruct (GroupModel.simplest (map building l)) as [|b|] eqn:E.
    + apply GroupProofs.simplest_none in E; [|exact HN]. apply map_eq_nil in E. contradiction.
    + left. exists b. split; [reflexivity|]. apply GroupProofs.simplest_one in E. destruct E as [_ E]. intros m Hm. apply in_flat_map in Hm. destruct Hm as (n & Hn & Hm).
      rewrite Forall_forall in F. specialize (E _ (in_map building l n Hn)). destruct (F n Hn) as [(b' & E' & K)|[E' _]]; [|congruence]. rewrite (K m Hm). congruence.
    + right. split; [reflexivity|]. apply (GroupProofs.simplest_many _ HN) in E. destruct E as (v & w & Hv & Hw & D).
      apply in_map_iff in Hv. destruct Hv as (n & Ev & Hn). apply in_map_iff in Hw. destruct Hw as (n' & Ew & Hn'). rewrite Forall_forall in F.
      assert (X : forall n, In n l -> (exists m m', In m (meters_in n) /\ In m' (meters_in n) /\ st_building m <> st_building m') ->
        exists m m', In m (flat_map meters_in l) /\ In m' (flat_map meters_in l) /\ st_building m <> st_building m').
      { intros y Hy (m & m' & H1 & H2 & H3). exists m, m'. split; [apply in_flat_map; eauto|]. split; [apply in_flat_map; eauto|exact H3]. }
      destruct (F n Hn) as [(b & E1 & K1)|[_ Y]]; [|exact (X n Hn Y)]. destruct (F n' Hn') as [(b' & E2 & K2)|[_ Y]]; [|exact (X n' Hn' Y)].
      destruct (meters_first n) as (m & ms & Em). destruct (meters_first n') as (m' & ms' & Em'). exists m, m'.
      assert (I1 : In m (meters_in n)) by (rewrite Em; now left). assert (I2 : In m' (meters_in n')) by (rewrite Em'; now left).
      split; [apply in_flat_map; eauto|]. split; [apply in_flat_map; eauto|]. rewrite (K1 m I1), (K2 m' I2). intros ->. destruct D as [D|D]; congruence.
Qed.
Lemma several_iff g : several_buildings g = true <-> ~ one_building g.
Proof.
  unfold several_buildings, one_building, meters_of. destruct (members g) as [|n l].
  - cbn. split; [discriminate|]. intros H. exfalso. apply H. intros m m' [].
  - pose proof (node_building (Many n l)) as H. cbn [building meters_in] in H. change (building n :: map building l) with (map building (n :: l)) in H.
    change (meters_in n ++ flat_map meters_in l) with (flat_map meters_in (n :: l)) in H. destruct H as [(b & -> & K)|[-> (m & m' & H1 & H2 & H3)]].
    + split; [discriminate|]. intros H. exfalso. apply H. intros m m' Hm Hm'. rewrite (K m Hm), (K m' Hm'). reflexivity.
    + split; [|reflexivity]. intros _ H. exact (H3 (H m m' H1 H2)).
Qed.
