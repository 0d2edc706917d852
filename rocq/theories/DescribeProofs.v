(** Proofs about the summary of a group. *)
From Coq Require Import QArith Lqa Lia.
From Verif Require Import Base TimeFrameModel TimeFrameSpec StoreModel StoreSpec EnergyModel EnergySpec AvgModel AvgSpec AvgProofs DescribeModel DescribeSpec.
From Verif Require GStatsModel GStatsSpec GStatsProofs GroupModel GroupProofs.
From Verif Require Import GoodSectionsSpec GoodSectionsProofs.
From Verif Require IdealProofs.
Import List. Open Scope Z_scope.

Section NodeInd.
  Variable P : node -> Prop.
  Hypothesis H1 : forall m, P (Meter m).
  Hypothesis H2 : forall f r, P f -> Forall P r -> P (Many f r).
  Fixpoint node_ind' (n : node) : P n :=
    match n with
    | Meter m => H1 m
    | Many f r => H2 f r (node_ind' f) ((fix all l : Forall P l := match l with [] => Forall_nil P | x :: k => Forall_cons x (node_ind' x) (all k) end) r)
    end.
End NodeInd.

Lemma site_iff n : is_site n = true <-> on_mains n.
Proof.
  unfold on_mains. induction n as [m|f r IHf IHr] using node_ind'; cbn [is_site meters_in].
  - split; [intros H; exists m; split; [now left|exact H]|]. intros (x & [<-|[]] & H). exact H.
  - rewrite Bool.orb_true_iff, existsb_exists. rewrite Forall_forall in IHr. split.
    + intros [H|(x & Hx & H)].
      * apply IHf in H. destruct H as (m & Hm & S). exists m. split; [apply in_or_app; now left|exact S].
      * apply (IHr x Hx) in H. destruct H as (m & Hm & S). exists m. split; [apply in_or_app; right; apply in_flat_map; eauto|exact S].
    + intros (m & Hm & S). apply in_app_or in Hm. destruct Hm as [Hm|Hm].
      * left. apply IHf. eauto.
      * apply in_flat_map in Hm. destruct Hm as (x & Hx & Hm). right. exists x. split; [exact Hx|]. apply (IHr x Hx). eauto.
Qed.
Lemma chosen_filter l : chosen on_mains l (filter is_site l).
Proof.
  induction l as [|x l IH]; cbn [filter]; [constructor|]. destruct (is_site x) eqn:E.
  - constructor; [now apply site_iff|exact IH].
  - constructor; [|exact IH]. rewrite <- site_iff, E. discriminate.
Qed.
Lemma chosen_unique {A} (P : A -> Prop) l r : chosen P l r -> forall r', chosen P l r' -> r = r'.
Proof.
  induction 1 as [|x l r Hx _ IH|x l r Hx _ IH]; intros r' H'; inversion H'; subst; try contradiction; [reflexivity|f_equal; now apply IH|now apply IH].
Qed.
Lemma chosen_incl {A} (P : A -> Prop) l r : chosen P l r -> forall x, In x r -> In x l.
Proof. induction 1 as [|y l r _ _ IH|y l r _ _ IH]; intros x Hx; [destruct Hx| |right; now apply IH]. destruct Hx as [<-|Hx]; [now left|right; now apply IH]. Qed.

Lemma meters_first n : exists m ms, meters_in n = m :: ms.
Proof. induction n as [m|f r IHf _] using node_ind'; cbn [meters_in]; [eauto|]. destruct IHf as (m & ms & E). rewrite E. cbn. eauto. Qed.
Lemma good_first c n m ms : meters_in n = m :: ms -> good c n = meter_good (st_rows m) (st_msp m) c.
Proof.
  revert m ms. induction n as [x|f r IHf _] using node_ind'; intros m ms; cbn [meters_in good].
  - intros [= <- _]. reflexivity.
  - destruct (meters_first f) as (y & ys & E). rewrite E. cbn. intros [= <- _]. exact (IHf _ _ E).
Qed.

(** ** The time frame *)
Definition frame_of (m : stored) : res tf := hdf_get_timeframe (st_rows m) tf_cleared.
Lemma frames_meters n : GStatsSpec.meters_of (frames n) = map frame_of (meters_in n).
Proof.
  induction n as [m|f r IHf IHr] using node_ind'; cbn [frames GStatsSpec.meters_of meters_in]; [reflexivity|].
  cbn [flat_map]. rewrite IHf, map_app. f_equal. induction IHr as [|x r Hx _ IH]; cbn [map flat_map]; [reflexivity|]. rewrite Hx, IH, map_app. reflexivity.
Qed.
Lemma sound_ends m : sound m -> exists x z, hd_error (st_rows m) = Some x /\ last_opt (st_rows m) = Some z /\ fst x < fst z /\
  In (fst x) (times m) /\ In (fst z) (times m) /\ (forall t, In t (times m) -> fst x <= t <= fst z).
Proof.
  intros (_ & Hi & H2 & _). unfold times. destruct (first_last (st_rows m) H2) as (x & y & r & z & E & Hz). rewrite E in *. exists x, z.
  split; [reflexivity|]. split; [exact Hz|]. split; [exact (first_lt_last x y r z Hi Hz)|].
  split; [now left|]. split; [apply in_map; exact (last_opt_in _ _ Hz)|].
  intros t Ht. apply in_map_iff in Ht. destruct Ht as (u & <- & Hu). split; [exact (first_le x (y :: r) Hi u Hu)|exact (sorted_le_last _ z Hi Hz u Hu)].
Qed.
Lemma sound_frame m : sound m -> exists a b t, frame_of m = Ok t /\ bounded t a b /\ In a (times m) /\ In b (times m) /\ (forall t, In t (times m) -> a <= t <= b).
Proof.
  intros S. destruct (sound_ends m S) as (x & z & Hx & Hz & L & A & B & C). exists (fst x), (fst z). unfold frame_of.
  destruct (whole_frame (st_rows m) x z Hx Hz L) as [-> _]. eexists. split; [reflexivity|]. split; [|auto]. unfold bounded. cbn. auto.
Qed.
Lemma frames_readable n : Forall sound (meters_in n) -> GStatsSpec.readable (frames n).
Proof.
  induction n as [m|f r IHf IHr] using node_ind'; cbn [frames meters_in]; intros H.
  - inversion_clear H as [|? ? S _]. destruct (sound_frame m S) as (a & b & t & E & B & _). unfold frame_of in E. rewrite E. constructor. exists a, b. exact B.
  - apply Forall_app in H. destruct H as [Hf Hr]. constructor; [now apply IHf|]. induction IHr as [|x r Hx _ IH]; cbn [map flat_map] in *; [constructor|].
    apply Forall_app in Hr. destruct Hr as [Ha Hb]. constructor; [constructor; now apply Hx|now apply IH].
Qed.
Lemma group_frames ms : flat_map GStatsSpec.meters_of (map frames ms) = map frame_of (flat_map meters_in ms).
Proof. induction ms as [|x r IH]; cbn [map flat_map]; [reflexivity|]. rewrite frames_meters, IH, map_app. reflexivity. Qed.

Lemma timeframe_ok g : members g <> [] -> Forall sound (meters_of g) ->
  exists u a b, timeframe g = Ok (Some u) /\ bounded u a b /\ first_instant (meters_of g) a /\ last_instant (meters_of g) b.
Proof.
  intros N F. unfold timeframe, meters_of in *. destruct (members g) as [|n ns]; [contradiction|].
  assert (R : GStatsSpec.readable (GStatsModel.TGroup (map frames (n :: ns)))).
  { cbn [flat_map map] in *. apply Forall_app in F. destruct F as [F1 F2]. constructor; [now apply frames_readable|]. clear N F1.
    induction ns as [|x r IH]; cbn [map flat_map] in *; [constructor|]. apply Forall_app in F2. destruct F2 as [Ha Hb]. constructor; [constructor; now apply frames_readable|now apply IH]. }
  destruct (GStatsProofs.timeframe_span _ R) as (u & G & a & b & B & (E1 & E2) & (L1 & L2)). exists u, a, b.
  cbn [GStatsSpec.meters_of] in *. rewrite group_frames in *. rewrite Forall_forall in F.
  split; [exact G|]. split; [exact B|]. split; split.
  - destruct E1 as (t & e & Ht & Bt). apply in_map_iff in Ht. destruct Ht as (m & Em & Hm). exists m. split; [exact Hm|].
    destruct (sound_frame m (F m Hm)) as (a' & b' & t' & Et & Bt' & Ia & _). rewrite Et in Em. injection Em as ->. destruct (GStatsProofs.bounded_fun _ _ _ _ _ Bt Bt') as [-> _]. exact Ia.
  - intros m t Hm Ht. destruct (sound_frame m (F m Hm)) as (a' & b' & t' & Et & Bt' & _ & _ & K). specialize (K t Ht).
    assert (a <= a') by (apply (E2 t' a' b'); [rewrite <- Et; now apply in_map|exact Bt']). lia.
  - destruct L1 as (t & e & Ht & Bt). apply in_map_iff in Ht. destruct Ht as (m & Em & Hm). exists m. split; [exact Hm|].
    destruct (sound_frame m (F m Hm)) as (a' & b' & t' & Et & Bt' & _ & Ib & _). rewrite Et in Em. injection Em as ->. destruct (GStatsProofs.bounded_fun _ _ _ _ _ Bt Bt') as [_ ->]. exact Ib.
  - intros m t Hm Ht. destruct (sound_frame m (F m Hm)) as (a' & b' & t' & Et & Bt' & _ & _ & K). specialize (K t Ht).
    assert (b' <= b) by (apply (L2 t' a' b'); [rewrite <- Et; now apply in_map|exact Bt']). lia.
Qed.

(** ** Covered time *)
Lemma gaps_nonneg msp l : 0 <= gaps msp l.
Proof. induction l as [|a [|b r] IH]; [cbn; lia|cbn; lia|]. rewrite gaps_cons2. destruct (b - a <=? msp); lia. Qed.
Lemma covered_span msp : forall r a z, increasing_times (a :: r) -> last_opt (a :: r) = Some z ->
  covered msp (a :: r) <= z - a /\ (covered msp (a :: r) = z - a <-> gaps msp (a :: r) = 0).
Proof.
  induction r as [|b r IH]; intros a z Hi Hz.
  - injection Hz as <-. cbn. split; [lia|]. split; [reflexivity|lia].
  - rewrite covered_cons2, gaps_cons2. cbn [increasing_times] in Hi. destruct Hi as [L Hi].
    change (last_opt (a :: b :: r)) with (last_opt (b :: r)) in Hz. destruct (IH b z Hi Hz) as [I1 I2]. pose proof (gaps_nonneg msp (b :: r)).
    destruct (b - a <=? msp); split; lia.
Qed.
Lemma last_map {A B} (f : A -> B) l : last_opt (map f l) = option_map f (last_opt l).
Proof. induction l as [|x [|y r] IH]; [reflexivity|reflexivity|]. exact IH. Qed.
Lemma sound_covered m x z : sound m -> hd_error (st_rows m) = Some x -> last_opt (st_rows m) = Some z ->
  0 <= covered (st_msp m) (times m) <= fst z - fst x /\ (covered (st_msp m) (times m) = fst z - fst x <-> gaps (st_msp m) (times m) = 0).
Proof.
  intros (_ & Hi & H2 & _) Hx Hz. pose proof (times_increasing _ Hi) as T. unfold times in *. pose proof (covered_nonneg (st_msp m) _ T).
  assert (Lz : last_opt (map fst (st_rows m)) = Some (fst z)) by (rewrite last_map, Hz; reflexivity).
  destruct (st_rows m) as [|y r]; [discriminate|]. injection Hx as ->. cbn [map] in *.
  destruct (covered_span (st_msp m) (map fst r) (fst x) (fst z) T Lz). split; [lia|assumption].
Qed.
Lemma sound_uptime c m : (1 <= c)%nat -> sound m -> uptime_of (meter_good (st_rows m) (st_msp m) c) = Ok (covered (st_msp m) (times m)).
Proof. intros Hc (H0 & Hi & H2 & Hp). now apply whole_uptime. Qed.
