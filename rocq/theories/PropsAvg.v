(** C74: uptime and average energy per period. *)
From Coq Require Import QArith Lia.
From Verif Require Import Base TimeFrameModel TimeFrameSpec StoreModel StoreSpec GoodSectionsModel EnergyModel EnergySpec AvgModel AvgSpec AvgProofs.
Import List. Open Scope Z_scope.

(** The uptime of a meter without missing values is the time covered by its samples,
    whatever the chunk size. *)
Theorem C74_uptime : forall rows msp c, 0 <= msp -> increasing rows -> (2 <= length rows)%nat -> all_present rows -> (1 <= c)%nat ->
  uptime_of (meter_good rows msp c) = Ok (covered msp (map fst rows)).
Proof. exact whole_uptime. Qed.
Print Assumptions C74_uptime.

Definition ex_rows : list (sample (list (option Z))) :=
  [(0, [Some 10]); (3, [Some 20]); (6, [Some 20]); (20, [Some 30]); (23, [Some 30]); (40, [Some 5])].
Definition ex_columns : list column := [(Power, Some Active)].
Definition ex_readings : list (sample Z) := [(0, 10); (3, 20); (6, 20); (20, 30); (23, 30); (40, 5)].
Example C74_example_rows : increasing ex_rows /\ all_present ex_rows /\ readings 0 ex_rows ex_readings /\ uses_column ex_columns Active Power 0 /\
  covered 5 (map fst ex_rows) = 9 /\ gaps 5 (map fst ex_rows) = 2.
Proof.
  split; [cbn; lia|]. split; [repeat (constructor; [repeat (constructor; [discriminate|]); constructor|]); constructor|].
  split; [repeat (constructor; [split; reflexivity|]); constructor|].
  split; [|split; reflexivity]. split; [reflexivity|]. split; [constructor; [intros []|constructor]|]. right. right. split; [reflexivity|].
  split; intros [H|[]]; discriminate.
Qed.
Example C74_example_uptime : uptime_of (meter_good ex_rows 5 2) = Ok 9 /\ uptime_of (meter_good ex_rows 5 100) = Ok 9.
Proof. split; vm_compute; reflexivity. Qed.

(** The average is the energy divided by the covered time, per period; it is NaN if
    nothing is covered. *)
Theorem C74_average : forall columns rows msp a k s c period, 0 <= msp -> increasing rows -> (2 <= length rows)%nat -> all_present rows ->
  uses_column columns a Power k -> readings k rows s -> (1 <= c)%nat -> 0 < period ->
  (covered msp (map fst rows) = 0 -> meter_average columns rows msp a c true period = Ok None) /\
  (covered msp (map fst rows) <> 0 -> exists e q, is_energy msp s e /\ meter_average columns rows msp a c true period = Ok (Some q) /\
     (q * inject_Z (covered msp (map fst rows)) == inject_Z e * inject_Z period)%Q).
Proof.
  intros. destruct (average_uptime columns rows msp a k s c period) as [H7 H8]; try assumption. split; [exact H7|].
  intros H9. destruct (H8 H9) as (e & q & A & _ & B & C). exists e, q. auto.
Qed.
Print Assumptions C74_average.

(** Without long distances the average lies between the smallest and the largest power. *)
Theorem C74_level : forall columns rows msp a k s c period lo hi, 0 <= msp -> increasing rows -> (2 <= length rows)%nat -> all_present rows ->
  uses_column columns a Power k -> readings k rows s -> (1 <= c)%nat -> 0 < period ->
  gaps msp (map fst rows) = 0 -> Forall (fun x => lo <= snd x <= hi) s ->
  exists q, meter_average columns rows msp a c true period = Ok (Some q) /\ (inject_Z (lo * period) <= q <= inject_Z (hi * period))%Q.
Proof. exact average_level. Qed.
Print Assumptions C74_level.

Example C74_example_level : gaps 5 (map fst (firstn 3 ex_rows)) = 0 /\ Forall (fun x => 10 <= snd x <= 20) (firstn 3 ex_readings) /\
  exists q, meter_average ex_columns (firstn 3 ex_rows) 5 Active 2 true 60 = Ok (Some q) /\ (q == 900)%Q.
Proof.
  split; [reflexivity|]. split; [repeat (constructor; [cbn; lia|]); constructor|]. eexists. split; [vm_compute; reflexivity|reflexivity].
Qed.

(** A constant load with long distances is overstated: the energy counts [msp] of each
    such distance, the uptime counts none of it. *)
Theorem C74_constant : forall columns rows msp a k s c period P, 0 <= msp -> increasing rows -> (2 <= length rows)%nat -> all_present rows ->
  uses_column columns a Power k -> readings k rows s -> (1 <= c)%nat -> 0 < period -> covered msp (map fst rows) <> 0 ->
  Forall (fun x => snd x = P) s ->
  exists q, meter_average columns rows msp a c true period = Ok (Some q) /\
    (q == inject_Z (P * period) * (1 + inject_Z (msp * gaps msp (map fst rows)) / inject_Z (covered msp (map fst rows))))%Q.
Proof. exact average_constant. Qed.
Print Assumptions C74_constant.

Definition on_rows : list (sample (list (option Z))) := [(0, [Some 10]); (3, [Some 10]); (20, [Some 10]); (22, [Some 10])].
Definition on_readings : list (sample Z) := [(0, 10); (3, 10); (20, 10); (22, 10)].
Theorem C74_gaps_refuted : ~ (forall columns rows msp a k s c period lo hi, 0 <= msp -> increasing rows -> (2 <= length rows)%nat -> all_present rows ->
  uses_column columns a Power k -> readings k rows s -> (1 <= c)%nat -> 0 < period ->
  covered msp (map fst rows) <> 0 -> Forall (fun x => lo <= snd x <= hi) s ->
  exists q, meter_average columns rows msp a c true period = Ok (Some q) /\ (inject_Z (lo * period) <= q <= inject_Z (hi * period))%Q).
Proof.
  intros H. destruct (H ex_columns on_rows 5 Active 0%nat on_readings 2%nat 60 10 10) as (q & E & Q1 & Q2); try (cbn; lia).
  - repeat (constructor; [repeat (constructor; [discriminate|]); constructor|]); constructor.
  - exact (proj1 (proj2 (proj2 (proj2 C74_example_rows)))).
  - repeat (constructor; [split; reflexivity|]); constructor.
  - repeat (constructor; [cbn; lia|]); constructor.
  - vm_compute in E. injection E as <-. apply Q2. reflexivity.
Qed.
Print Assumptions C74_gaps_refuted.

(** With [use_uptime=False] the whole time from the first to the last sample is used, and
    the average is never above the largest power. *)
Theorem C74_whole : forall columns rows msp a k s c period P x z, 0 <= msp -> increasing rows -> (2 <= length rows)%nat ->
  uses_column columns a Power k -> readings k rows s -> (1 <= c)%nat -> 0 < period -> 0 <= P -> Forall (fun x => snd x <= P) s ->
  hd_error rows = Some x -> last_opt rows = Some z ->
  exists e q, is_energy msp s e /\ meter_average columns rows msp a c false period = Ok (Some q) /\
     (q * inject_Z (fst z - fst x) == inject_Z e * inject_Z period)%Q /\ (q <= inject_Z (P * period))%Q.
Proof. exact span_at_most. Qed.
Print Assumptions C74_whole.

Example C74_example_whole : exists q, meter_average ex_columns ex_rows 5 Active 2 false 60 = Ok (Some q) /\ (q * 40 == 430 * 60)%Q.
Proof. eexists. split; [vm_compute; reflexivity|reflexivity]. Qed.

(** A meter group: if its meters have the same uptime, the sum of their averages. *)
Theorem C74_group : forall ms u es period, ms <> [] -> u <> 0 -> 0 < period -> Forall2 (fun m e => measures m u e) ms es ->
  exists q qs, group_average ms period = Ok (Some q) /\
    Forall2 (fun m x => average_energy false true (m_good m) (Err AttributeError) (m_energy m) period = Ok (Some x)) ms qs /\ (q == sumQ qs)%Q.
Proof. exact group_average_sum. Qed.
Print Assumptions C74_group.

(** Only the uptime of the first meter counts. *)
Theorem C74_group_first : forall ms u period q, uptime_of (group_good ms) = Ok u -> 0 < period -> 0 < u -> group_average ms period = Ok (Some q) ->
  exists e, group_energy ms = Ok e /\ (q * inject_Z u == e * inject_Z period)%Q.
Proof. exact group_average_first. Qed.
Print Assumptions C74_group_first.

Definition meter_of (rows : list (sample (list (option Z)))) : meter := mkMeter (meter_good rows 5 2) (meter_energy ex_columns rows 5 Active 2).
Definition m_long : meter := meter_of [(0, [Some 10]); (3, [Some 10]); (6, [Some 10])].
Definition m_short : meter := meter_of [(0, [Some 20]); (2, [Some 20])].
Example C74_example_group : measures m_long 6 60 /\ measures m_short 2 40 /\ Forall2 (fun m e => measures m 6 e) [m_long; m_long] [60; 60]%Q.
Proof. split; [split; vm_compute; reflexivity|]. split; [split; vm_compute; reflexivity|]. repeat (constructor; [split; vm_compute; reflexivity|]); constructor. Qed.

(** With different uptimes the average of a group is not the sum of the averages (10 and
    20 W), and it depends on the order of the meters. *)
Theorem C74_group_refuted :
  (~ forall ms us es period, ms <> [] -> 0 < period -> length ms = length us -> Forall2 (fun mu e => measures (fst mu) (snd mu) e /\ 0 < snd mu) (combine ms us) es ->
     exists q qs, group_average ms period = Ok (Some q) /\
       Forall2 (fun m x => average_energy false true (m_good m) (Err AttributeError) (m_energy m) period = Ok (Some x)) ms qs /\ (q == sumQ qs)%Q) /\
  (exists a b, forall period, 0 < period -> exists p q, group_average [a; b] period = Ok (Some p) /\ group_average [b; a] period = Ok (Some q) /\ ~ (p == q)%Q).
Proof.
  split.
  - intros H. destruct (H [m_long; m_short] [6; 2] [60; 40]%Q 60) as (q & qs & E & F & S); try (cbn; lia); try discriminate.
    + constructor; [split; [exact (proj1 C74_example_group)|cbn; lia]|]. constructor; [split; [exact (proj1 (proj2 C74_example_group))|cbn; lia]|constructor].
    + vm_compute in E. injection E as <-. inversion F as [|? x1 ? ? E1 F1]; subst. inversion F1 as [|? x2 ? ? E2 F2]; subst. inversion F2; subst.
      vm_compute in E1, E2. injection E1 as <-. injection E2 as <-. vm_compute in S. discriminate.
  - exists m_long, m_short. intros period Hp.
    assert (U1 : uptime_of (m_good m_long) = Ok 6) by (vm_compute; reflexivity). assert (U2 : uptime_of (m_good m_short) = Ok 2) by (vm_compute; reflexivity).
    assert (E1 : exists q, group_energy [m_long; m_short] = Ok q /\ (q == 100)%Q) by (eexists; split; [vm_compute; reflexivity|reflexivity]).
    assert (E2 : exists q, group_energy [m_short; m_long] = Ok q /\ (q == 100)%Q) by (eexists; split; [vm_compute; reflexivity|reflexivity]).
    destruct E1 as (q1 & E1 & V1), E2 as (q2 & E2 & V2).
    destruct (group_average [m_long; m_short] period) as [[p|]|x] eqn:G1.
    2-3: exfalso; unfold group_average, average_energy in G1; cbn [group_good] in G1; rewrite U1 in G1; cbn [bind] in G1; change (6 =? 0) with false in G1; rewrite E1 in G1; discriminate.
    destruct (group_average [m_short; m_long] period) as [[q|]|x] eqn:G2.
    2-3: exfalso; unfold group_average, average_energy in G2; cbn [group_good] in G2; rewrite U2 in G2; cbn [bind] in G2; change (2 =? 0) with false in G2; rewrite E2 in G2; discriminate.
    exists p, q. split; [reflexivity|]. split; [reflexivity|]. intros Epq.
    destruct (C74_group_first [m_long; m_short] 6 period p U1 Hp ltac:(lia) G1) as (e1 & X1 & Y1). destruct (C74_group_first [m_short; m_long] 2 period q U2 Hp ltac:(lia) G2) as (e2 & X2 & Y2).
    rewrite E1 in X1. injection X1 as <-. rewrite E2 in X2. injection X2 as <-. rewrite V1 in Y1. rewrite V2 in Y2. rewrite Epq, <- Y2 in Y1.
    assert (Z : (q == 0)%Q) by (apply (Qmult_inj_r _ _ 4); [discriminate|]; setoid_replace (q * 4)%Q with (q * inject_Z 6 - q * inject_Z 2)%Q by (unfold inject_Z; ring); rewrite Y1; ring).
    rewrite Z in Y2. unfold Qeq, Qmult, inject_Z in Y2. cbn [Qnum Qden] in Y2. lia.
Qed.
Print Assumptions C74_group_refuted.

(** "Per month" means per length of the month after the current one: 28 to 31 days,
    depending on the day the statistic is asked for. *)
Theorem C74_month : forall today, 1 <= d_month today <= 12 -> 28 * day <= alias_seconds Month today <= 31 * day.
Proof.
  intros t H. unfold alias_seconds, days_in_month, day. destruct (leap _), (leap _); destruct (d_month t =? 12);
    repeat match goal with |- context [if ?b then _ else _] => destruct b end; lia.
Qed.
Print Assumptions C74_month.
(** Exactly: from the first day of the next month to the first day of the one after. *)
Theorem C74_month_exact : forall today, 1 <= d_month today <= 12 ->
  let next := month_after (d_year today, d_month today) in let after := month_after next in
  alias_seconds Month today = 86400 * (day_number (fst after) (snd after) - day_number (fst next) (snd next)).
Proof. exact month_exact. Qed.
Print Assumptions C74_month_exact.
Example C74_month_ex : day_number 2024 3 - day_number 2024 2 = 29 /\ day_number 1900 3 - day_number 1900 2 = 28 /\ day_number 2400 1 - day_number 2000 1 = 146097.
Proof. repeat split. Qed.

Theorem C74_date_refuted : ~ (forall al today today', 1 <= d_month today <= 12 -> 1 <= d_month today' <= 12 -> d_year today = d_year today' ->
  alias_seconds al today = alias_seconds al today') /\
  (exists today today', d_month today = d_month today' /\ d_year today = d_year today' /\ alias_seconds Business today = 3 * alias_seconds Business today').
Proof.
  split.
  - intros H. specialize (H Month (mkDate 2023 1 0) (mkDate 2023 2 0)). cbn in H. specialize (H ltac:(lia) ltac:(lia) eq_refl). discriminate.
  - exists (mkDate 2023 1 4), (mkDate 2023 1 0). repeat split; reflexivity.
Qed.
Print Assumptions C74_date_refuted.

(** Days, hours and weeks do not depend on the date; the leap year counts. *)
Example C74_example_alias : (forall s t t', alias_seconds (Fixed s) t = alias_seconds (Fixed s) t') /\ (forall t, alias_seconds Week t = 604800) /\
  alias_seconds Month (mkDate 2024 1 0) = 29 * day /\ alias_seconds Month (mkDate 2023 1 0) = 28 * day /\ alias_seconds Month (mkDate 1900 1 0) = 28 * day /\
  alias_seconds Month (mkDate 2000 1 0) = 29 * day /\ alias_seconds Month (mkDate 2023 12 0) = 31 * day /\ alias_seconds Month (mkDate 2023 3 0) = 30 * day.
Proof. repeat split; reflexivity. Qed.

(** Errors: sections may not be given; an empty table has no time frame; one sample
    covers nothing. *)
Example C74_example_errors :
  average_energy true true (Ok []) (Err IndexError) (Ok 1%Q) 60 = Err RuntimeError /\
  meter_average ex_columns [] 5 Active 2 true 60 = Err IndexError /\
  meter_average ex_columns [(0, [Some 1]); (20, [Some 1])] 5 Active 2 true 60 = Ok None /\
  meter_average ex_columns [(0, [Some 1])] 5 Active 2 true 60 = Err ValueError /\
  group_average [] 60 = Err AttributeError.
Proof. repeat split; vm_compute; reflexivity. Qed.
