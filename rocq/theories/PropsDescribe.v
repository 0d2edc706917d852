(** C95: the summary of a group of meters, [describe]. *)
From Coq Require Import QArith Lqa Lia.
From Verif Require Import Base TimeFrameModel StoreModel StoreSpec EnergyModel EnergySpec AvgSpec DescribeModel DescribeSpec DescribeProofs DescribeProofs2 DescribeProofs3.
Import List. Open Scope Z_scope.

(** The counts: all members, enabled or not, and those of them on the mains. *)
Theorem C95_counts : forall (C P : Type) c (stats : option (res C * res P)) g s, describe c stats g = Ok s ->
  total_n_meters s = (length (members g) + length (disabled g))%nat /\
  exists l, chosen on_mains (members g ++ disabled g) l /\ total_n_site_meters s = length l.
Proof. exact @counts. Qed.
Print Assumptions C95_counts.

(** The time frame runs from the first to the last reading of any meter; the uptime is the
    time covered by the readings of the first mains meter; their quotient is in [0, 1]. *)
Theorem C95_uptime : forall (C P : Type) c (stats : option (res C * res P)) g s, (1 <= c)%nat -> Forall sound (meters_of g) -> describe c stats g = Ok s ->
  exists m a b p, first_mains g m /\ In m (meters_of g) /\ first_instant (meters_of g) a /\ last_instant (meters_of g) b /\ a < b /\
    frame_start s = Some a /\ frame_end s = Some b /\ total_duration s = Some (b - a) /\
    mains_uptime s = covered (st_msp m) (times m) /\ proportion_uptime s = Some p /\
    (p * inject_Z (b - a) == inject_Z (mains_uptime s))%Q /\ (0 <= p <= 1)%Q.
Proof. exact @uptime_right. Qed.
Print Assumptions C95_uptime.

(** It is 1 exactly if that meter reported from the first to the last instant without a
    long distance. *)
Theorem C95_always : forall (C P : Type) c (stats : option (res C * res P)) g s m a b, (1 <= c)%nat -> Forall sound (meters_of g) -> describe c stats g = Ok s ->
  first_mains g m -> first_instant (meters_of g) a -> last_instant (meters_of g) b ->
  ((exists p, proportion_uptime s = Some p /\ (p == 1)%Q) <-> In a (times m) /\ In b (times m) /\ gaps (st_msp m) (times m) = 0).
Proof. exact @always_up. Qed.
Print Assumptions C95_always.

(** The energy per day: the energy of all mains meters over the uptime of the first. *)
Theorem C95_average : forall (C P : Type) c (stats : option (res C * res P)) g s l, (1 <= c)%nat -> Forall sound (meters_of g) -> chosen on_mains (members g) l ->
  Forall uses (flat_map meters_in l) -> describe c stats g = Ok s ->
  (mains_uptime s = 0 /\ average_mains_energy_per_day s = None) \/
  (0 < mains_uptime s /\ exists q es, average_mains_energy_per_day s = Some q /\ Forall2 consumed (flat_map meters_in l) es /\
     (q * inject_Z (mains_uptime s) == inject_Z (sumZ es) * 86400)%Q).
Proof. exact @average_right. Qed.
Print Assumptions C95_average.

(** When there is a summary, and its sample periods: the longest of the mains meters and
    the longest of the others. *)
Theorem C95_works : forall (C P : Type) c (stats : option (res C * res P)) g sites subs, (1 <= c)%nat -> one_building g -> Forall sound (meters_of g) -> Forall known (meters_of g) ->
  chosen on_mains (members g) sites -> sites <> [] -> Forall uses (flat_map meters_in sites) -> chosen (fun n => ~ on_mains n) (members g) subs -> subs <> [] ->
  at_hand stats g ->
  exists s y z, describe c stats g = Ok s /\ mains_sample_period s = Some y /\ longest_period (flat_map meters_in sites) y /\
    submeter_sample_period s = Some z /\ longest_period (flat_map meters_in subs) z.
Proof. exact @works. Qed.
Print Assumptions C95_works.

(** The dropout rates of meters side by side: the least, the mean, the greatest. *)
Theorem C95_dropout : forall (C P : Type) c (x : res C) (y : res P) g s ms qs, describe c (Some (x, y)) g = Ok s -> members g = map Meter ms -> Forall2 rated ms qs ->
  exists v w lo mean hi, x = Ok v /\ y = Ok w /\ expensive s = Some (v, w, Some (lo, mean, hi)) /\ In lo qs /\ In hi qs /\ (forall q, In q qs -> lo <= q <= hi)%Q /\ mean_is qs mean /\ (lo <= mean <= hi)%Q.
Proof. exact @rates_flat. Qed.
Print Assumptions C95_dropout.

(** With groups inside the group they stay within the rates of the meters. *)
Theorem C95_dropout_nested : forall (C P : Type) c (x : res C) (y : res P) g s lo hi, describe c (Some (x, y)) g = Ok s ->
  Forall (fun m => exists q, rated m q /\ (lo <= q <= hi)%Q) (meters_of g) ->
  exists v w a b d, expensive s = Some (v, w, Some (a, b, d)) /\ (lo <= a)%Q /\ (a <= b)%Q /\ (b <= d)%Q /\ (d <= hi)%Q.
Proof. exact @rates_tree. Qed.
Print Assumptions C95_dropout_nested.

(** One rate that is NaN makes all three NaN. *)
Theorem C95_dropout_nan : forall (C P : Type) c (x : res C) (y : res P) g s, describe c (Some (x, y)) g = Ok s ->
  (exists m, In m (meters_of g) /\ st_rate m = Ok None) -> exists v w, expensive s = Some (v, w, None).
Proof. exact @rates_nan. Qed.
Print Assumptions C95_dropout_nan.

(** No summary without mains, without other meters, or of several buildings. *)
Theorem C95_fails : forall (C P : Type) c g,
  (one_building g -> (forall n, In n (members g) -> ~ on_mains n) -> @describe C P c None g = Err AttributeError) /\
  (one_building g -> Forall known (meters_of g) -> members g <> [] -> (forall n, In n (members g) -> on_mains n) -> @describe C P c None g = Err ValueError) /\
  (~ one_building g -> @describe C P c None g = Err RuntimeError).
Proof. intros C P c g. split; [exact (no_mains c g)|]. split; [exact (only_mains c g)|exact (buildings c g)]. Qed.
Print Assumptions C95_fails.

(** Disabled meters only count. *)
Theorem C95_disabled : forall (C P : Type) c (stats : option (res C * res P)) g d s, describe c stats g = Ok s -> exists s', describe c stats (mkGroup (members g) d) = Ok s' /\
  expensive s' = expensive s /\ mains_sample_period s' = mains_sample_period s /\ submeter_sample_period s' = submeter_sample_period s /\
  frame_start s' = frame_start s /\ frame_end s' = frame_end s /\ total_duration s' = total_duration s /\ mains_uptime s' = mains_uptime s /\
  proportion_uptime s' = proportion_uptime s /\ average_mains_energy_per_day s' = average_mains_energy_per_day s.
Proof. exact @only_counted. Qed.
Print Assumptions C95_disabled.

(** * A house with two mains meters, a fridge and an oven on two meters *)
Definition rows_of (l : list Z) : list (sample (list (option Z))) := map (fun t => (t, [Some 10])) l.
Definition ex_meter (site : bool) (b : nat) (p : Z) (r : Q) (l : list Z) : stored := mkStored site b (Some p) (Ok (Some r)) (rows_of l) [(Power, Some Active)] Active 5.
Definition main1 := ex_meter true 1 1 (1 # 10) [0; 4; 8; 12; 16; 20].
Definition main2 := ex_meter true 1 2 (2 # 10) [4; 8; 20].
Definition fridge := ex_meter false 1 6 (3 # 10) [2; 7; 12].
Definition oven := Many (Meter (ex_meter false 1 3 (4 # 10) [3; 8])) [Meter (ex_meter false 1 8 (6 # 10) [3; 8; 13])].
Definition house : group := mkGroup [Meter main1; Meter fridge; oven; Meter main2] [Meter (ex_meter true 1 1 0 [0; 1])].
Definition house_stats : option (res Z * res Z) := Some (Ok 7, Ok 9).

Lemma ex_sound site b p r l : increasing (rows_of l) -> (2 <= length l)%nat -> sound (ex_meter site b p r l).
Proof.
  intros H1 H2. split; [cbn; lia|]. split; [exact H1|]. split; [cbn; unfold rows_of; rewrite map_length; exact H2|].
  unfold all_present. cbn. unfold rows_of. apply Forall_forall. intros x Hx. apply in_map_iff in Hx. destruct Hx as (t & <- & _). repeat constructor. discriminate.
Qed.
Lemma ex_uses site b p r l : uses (ex_meter site b p r l).
Proof.
  exists (map (fun t => (t, 10)) l), 0%nat. split.
  - split; [reflexivity|]. split; [constructor; [intros []|constructor]|]. right. right. split; [reflexivity|]. split; intros [H|[]]; discriminate.
  - cbn. unfold rows_of, readings. induction l as [|t l IH]; cbn [map]; constructor; [split; reflexivity|exact IH].
Qed.
Lemma on_main1 : on_mains (Meter main1). Proof. exists main1. split; [now left|reflexivity]. Qed.
Lemma on_main2 : on_mains (Meter main2). Proof. exists main2. split; [now left|reflexivity]. Qed.
Lemma off_fridge : ~ on_mains (Meter fridge). Proof. intros (m & [<-|[]] & H). discriminate. Qed.
Lemma off_oven : ~ on_mains oven. Proof. intros (m & [<-|[<-|[]]] & H); discriminate. Qed.

Example C95_example_house : Forall sound (meters_of house) /\ Forall known (meters_of house) /\ one_building house /\
  chosen on_mains (members house) [Meter main1; Meter main2] /\ chosen (fun n => ~ on_mains n) (members house) [Meter fridge; oven] /\
  Forall uses (flat_map meters_in [Meter main1; Meter main2]) /\ at_hand house_stats house /\ first_mains house main1 /\
  first_instant (meters_of house) 0 /\ last_instant (meters_of house) 20.
Proof.
  assert (A : Forall sound (meters_of house)) by (repeat (constructor; [apply ex_sound; cbn; lia|]); constructor).
  assert (CH : chosen on_mains (members house) [Meter main1; Meter main2]).
  { constructor; [exact on_main1|]. apply chosen_out; [exact off_fridge|]. apply chosen_out; [exact off_oven|]. constructor; [exact on_main2|constructor]. }
  split; [exact A|]. split; [repeat (constructor; [discriminate|]); constructor|].
  split. { intros m m' H H'. cbn in H, H'. assert (X : forall x, main1 = x \/ fridge = x \/ ex_meter false 1 3 (4 # 10) [3; 8] = x \/ ex_meter false 1 8 (6 # 10) [3; 8; 13] = x \/ main2 = x \/ False -> st_building x = 1%nat) by (intros x Hx; repeat (destruct Hx as [<-|Hx]; [reflexivity|]); destruct Hx). rewrite (X m H), (X m' H'). reflexivity. }
  split; [exact CH|].
  split. { apply chosen_out; [intros H; apply H; exact on_main1|]. constructor; [exact off_fridge|]. constructor; [exact off_oven|]. apply chosen_out; [intros H; apply H; exact on_main2|constructor]. }
  split; [repeat (constructor; [apply ex_uses|]); constructor|].
  split; [split; [eauto|split; [eauto|repeat (constructor; [eexists; reflexivity|]); constructor]]|].
  split; [exists (Meter main1), [Meter main2], []; auto|].
  split; split; try (exists main1; split; [now left|cbn; auto 10]); intros m t Hm Ht; cbn in Hm; repeat (destruct Hm as [<-|Hm]; [cbn in Ht; lia|]); destruct Hm.
Qed.
Example C95_example_summary : exists s, describe 2 house_stats house = Ok s /\ total_n_meters s = 5%nat /\ total_n_site_meters s = 3%nat /\
  mains_sample_period s = Some 2 /\ submeter_sample_period s = Some 8 /\ frame_start s = Some 0 /\ frame_end s = Some 20 /\ total_duration s = Some 20 /\
  mains_uptime s = 20 /\ (exists p, proportion_uptime s = Some p /\ (p == 1)%Q) /\
  (exists q, average_mains_energy_per_day s = Some q /\ (q * 20 == (200 + 90) * 86400)%Q) /\
  (exists lo mean hi, expensive s = Some (7, 9, Some (lo, mean, hi)) /\ (lo == 1 # 10)%Q /\ (mean == 275 # 1000)%Q /\ (hi == 1 # 2)%Q).
Proof.
  eexists. split; [vm_compute; reflexivity|]. do 8 (split; [reflexivity|]).
  split; [eexists; split; [reflexivity|reflexivity]|]. split; [eexists; split; [reflexivity|reflexivity]|]. do 3 eexists. split; [reflexivity|]. repeat split.
Qed.

(** The other mains meters do not matter for the uptime: here it is 1, although the second
    mains meter began late and has a long distance. *)
Theorem C95_other_mains_refuted : ~ (forall (C P : Type) c (stats : option (res C * res P)) g s p, (1 <= c)%nat -> Forall sound (meters_of g) -> describe c stats g = Ok s ->
  proportion_uptime s = Some p -> (p == 1)%Q -> forall m, In m (meters_of g) -> st_site m = true -> gaps (st_msp m) (times m) = 0).
Proof.
  intros H. destruct C95_example_summary as (s & E & _ & _ & _ & _ & _ & _ & _ & _ & (p & Ep & P1) & _). destruct C95_example_house as (F & _).
  specialize (H Z Z 2%nat house_stats house s p ltac:(lia) F E Ep P1 main2 ltac:(cbn; auto 10) eq_refl). discriminate.
Qed.
Print Assumptions C95_other_mains_refuted.

(** [total_n_meters] counts a group inside the group as one, and [total_n_site_meters]
    counts mains meters that [mains()] leaves out. *)
Theorem C95_number_refuted : ~ (forall (C P : Type) c (stats : option (res C * res P)) g s, describe c stats g = Ok s ->
    total_n_meters s = length (meters_of g ++ flat_map meters_in (disabled g))) /\
  ~ (forall (C P : Type) c (stats : option (res C * res P)) g s l, describe c stats g = Ok s -> chosen on_mains (members g) l -> total_n_site_meters s = length l).
Proof.
  destruct C95_example_summary as (s & E & N1 & N2 & _). destruct C95_example_house as (_ & _ & _ & CH & _). split; intros H.
  - specialize (H Z Z _ _ _ _ E). rewrite N1 in H. discriminate.
  - specialize (H Z Z _ _ _ _ _ E CH). rewrite N2 in H. discriminate.
Qed.
Print Assumptions C95_number_refuted.

Example C95_example_fails : one_building (mkGroup [Meter fridge] []) /\ (forall n, In n [Meter fridge] -> ~ on_mains n) /\ (forall n, In n [Meter main1] -> on_mains n) /\
  ~ one_building (mkGroup [Meter main1; Meter (ex_meter false 2 6 0 [0; 1])] []) /\
  @describe Z Z 2 None (mkGroup [Meter main1] []) = Err ValueError /\ @describe Z Z 2 None (mkGroup [] []) = Err AttributeError /\
  @describe Z Z 2 (Some (Err AttributeError, Ok 1)) house = Err AttributeError /\
  @describe Z Z 2 None (mkGroup [Meter main1; Meter fridge; Meter (mkStored false 1 None (Ok None) (rows_of [0; 1]) [] Active 5)] []) = Err TypeError.
Proof.
  split; [intros m m' [<-|[]] [<-|[]]; reflexivity|]. split; [intros n [<-|[]]; exact off_fridge|]. split; [intros n [<-|[]]; exact on_main1|].
  split; [intros H; specialize (H main1 (ex_meter false 2 6 0 [0; 1]) (or_introl eq_refl) (or_intror (or_introl eq_refl))); discriminate|].
  repeat split.
Qed.
Example C95_example_nan : exists s, @describe Z Z 2 (Some (Ok 1, Ok 1)) (mkGroup [Meter main1; Meter (mkStored false 1 (Some 6) (Ok None) (rows_of [0; 1]) [] Active 5)] []) = Ok s /\
  expensive s = Some (1, 1, None).
Proof. eexists. split; [vm_compute; reflexivity|reflexivity]. Qed.
