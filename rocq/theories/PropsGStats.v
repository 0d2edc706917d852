(** Properties C54, C55 and C56: statistics of a MeterGroup. *)
From Coq Require Import QArith Lqa Lia.
From Verif Require Import Base TimeFrameModel TimeFrameSpec EnergyModel TopModel StoreModel GStatsModel GStatsSpec GStatsProofs GStatsProofs2.
Open Scope Z_scope.

(** * C54: get_timeframe *)
Theorem C54_span : forall n, readable n -> exists u s e, get_timeframe n = Ok (Some u) /\ bounded u s e /\
  earliest (meters_of n) s /\ latest (meters_of n) e.
Proof. intros n R. destruct (timeframe_span n R) as (u & G & s & e & H). exists u, s, e. split; [exact G|exact H]. Qed.
Print Assumptions C54_span.

Theorem C54_covers : forall n t i, readable n -> In (Ok t) (meters_of n) -> is_bounded t -> inTF t i ->
  exists u, get_timeframe n = Ok (Some u) /\ inTF u i.
Proof. exact timeframe_covers. Qed.
Print Assumptions C54_covers.

Theorem C54_raises : forall n e, In (Err e) (meters_of n) -> exists e', get_timeframe n = Err e'.
Proof. exact timeframe_raises. Qed.
Print Assumptions C54_raises.

Definition ex_frame (s e : Z) : tf := mkTF (Some s) (Some e) true false false.
Definition ex_empty : tf := mkTF None None true true false.
Lemma ex_frame_bounded s e : s < e -> is_bounded (ex_frame s e).
Proof. intros L. exists s, e. repeat split; auto. Qed.
Example C54_example :
  let n := TGroup [TMeter (Ok (ex_frame 10 20)); TMeter (Ok ex_empty); TGroup [TMeter (Ok (ex_frame 30 40)); TMeter (Ok (ex_frame 5 12))]] in
  readable n /\ get_timeframe n = Ok (Some (ex_frame 5 40)).
Proof.
  cbv zeta. split; [|reflexivity].
  apply readable_group; [apply readable_meter, ex_frame_bounded; lia|].
  constructor; [apply roe_empty; reflexivity|]. constructor; [|constructor]. apply roe_readable.
  apply readable_group; [apply readable_meter, ex_frame_bounded; lia|]. constructor; [|constructor].
  apply roe_readable, readable_meter, ex_frame_bounded. lia.
Qed.

(** The window leaves nothing of the first meter: its frame is empty, and the
    time frame of the group cannot be had although the second meter has one; in
    the other order it can. *)
Theorem C54_first_empty_refuted : exists (rows1 rows2 : list (sample Z)) window t1 t2,
  hdf_get_timeframe rows1 window = Ok t1 /\ hdf_get_timeframe rows2 window = Ok t2 /\ is_bounded t2 /\
  get_timeframe (TGroup [TMeter (Ok t1); TMeter (Ok t2)]) = Err TypeError /\
  get_timeframe (TGroup [TMeter (Ok t2); TMeter (Ok t1)]) = Ok (Some t2).
Proof.
  exists [(0, 1); (10, 1)], [(50, 1); (60, 1)], (ex_frame 40 100).
  eexists. eexists. split; [reflexivity|]. split; [reflexivity|]. split; [|split; reflexivity].
  exists 50, 60. repeat split; auto.
Qed.
Print Assumptions C54_first_empty_refuted.

(** A group without meters inside the group, after the first meter. *)
Theorem C54_empty_group_refuted : exists t, is_bounded t /\
  get_timeframe (TGroup [TMeter (Ok t); TGroup []]) = Err AttributeError.
Proof. exists (ex_frame 0 1). split; [apply ex_frame_bounded; lia|reflexivity]. Qed.
Print Assumptions C54_empty_group_refuted.

(** * C55: total_energy and dropout_rate *)
Open Scope Q_scope.
Theorem C55_sum : forall n a vs, Forall2 (fun s v => amount s a v) (energies_of n) vs ->
  exists q, amount (group_energy n) a q /\ q == qsum vs.
Proof. exact energy_sum. Qed.
Print Assumptions C55_sum.

Theorem C55_types : forall n a s r, energies_of n = s :: r -> (records (group_energy n) a <-> records s a).
Proof. exact energy_types. Qed.
Print Assumptions C55_types.

Theorem C55_incomplete : forall n a s, In s (energies_of n) -> (forall q, ~ amount s a q) ->
  forall q, ~ amount (group_energy n) a q.
Proof. exact energy_lost. Qed.
Print Assumptions C55_incomplete.

Example C55_example :
  let m x y := EMeter [(Active, Some x); (Apparent, Some y)] in
  let n := EGroup (m 1 2) [EGroup (m 3 4) [m 5 6]; m 7 8] in
  Forall2 (fun s v => amount s Apparent v) (energies_of n) [2; 4; 6; 8] /\
  exists q, amount (group_energy n) Apparent q /\ q == 20.
Proof.
  cbv zeta. split; [repeat constructor|]. exists (2 + (4 + 6) + 8). split; reflexivity.
Qed.

(** A meter with other AC types, or without readings, destroys the total. *)
Theorem C55_types_refuted : exists s1 s2 s3 : series,
  amount s1 Active 5 /\ amount s2 Active 3 /\ amount s2 Apparent 4 /\ s3 = [] /\
  group_energy (EGroup (EMeter s1) [EMeter s2]) = [(Active, Some 8)] /\
  group_energy (EGroup (EMeter s2) [EMeter s1]) = [(Active, Some 8); (Apparent, None)] /\
  group_energy (EGroup (EMeter s1) [EMeter s3]) = [(Active, None)] /\
  group_energy (EGroup (EMeter s3) [EMeter s1]) = [].
Proof. exists [(Active, Some 5)], [(Active, Some 3); (Apparent, Some 4)], []. repeat split. Qed.
Print Assumptions C55_types_refuted.

Theorem C55_dropout_flat : forall rates, rates <> [] -> exists q,
  dropout_rate (DGroup (map (fun r => DMeter (Some r)) rates)) = Some q /\ mean_of rates q.
Proof. exact mean_flat. Qed.
Print Assumptions C55_dropout_flat.

Theorem C55_dropout_range : forall n, no_empty_group n ->
  Forall (fun r => exists q, r = Some q /\ in_unit q) (rates_of n) ->
  exists q, dropout_rate n = Some q /\ in_unit q.
Proof. exact rate_unit. Qed.
Print Assumptions C55_dropout_range.

Example C55_dropout_example :
  let n := DGroup [DMeter (Some (1#2)); DGroup [DMeter (Some 0); DMeter (Some 1)]] in
  no_empty_group n /\ Forall (fun r => exists q, r = Some q /\ in_unit q) (rates_of n) /\
  exists q, dropout_rate n = Some q /\ q == 1#2.
Proof.
  cbv zeta. split; [cbn; repeat split; discriminate|]. split.
  - repeat (constructor; [eexists; split; [reflexivity|split; lra]|]). constructor.
  - eexists. split; reflexivity.
Qed.

(** A group inside the group counts as one meter. *)
Theorem C55_dropout_nested_refuted : exists n q m, no_empty_group n /\
  rates_of n = [Some 0; Some 0; Some 1] /\ dropout_rate n = Some q /\ mean_of [0; 0; 1] m /\ ~ q == m.
Proof.
  exists (DGroup [DGroup [DMeter (Some 0); DMeter (Some 0)]; DMeter (Some 1)]). eexists. exists (1 # 3).
  split; [cbn; repeat split; discriminate|]. split; [reflexivity|]. split; [reflexivity|].
  split; [split; [discriminate|reflexivity]|]. vm_compute. discriminate.
Qed.
Print Assumptions C55_dropout_nested_refuted.

(** * C56: proportion_of_energy and proportion_of_energy_submetered *)
Theorem C56_mean : forall own other T rs, has_energy other -> in_common own other T -> T <> [] ->
  Forall2 (ratio_ok own other) T rs ->
  exists q, proportion_of_energy own other = Ok (Fin q) /\ mean_of rs q.
Proof. exact proportion_mean. Qed.
Print Assumptions C56_mean.

Theorem C56_range : forall own other T, has_energy other -> in_common own other T -> T <> [] ->
  (forall a, In a T -> exists x y, amount own a x /\ amount other a y /\ 0 <= x <= y /\ 0 < y) ->
  exists q, proportion_of_energy own other = Ok (Fin q) /\ in_unit q.
Proof. exact proportion_range. Qed.
Print Assumptions C56_range.

Theorem C56_submetered : forall mains ms ps, Forall2 (prop_is mains) ms ps -> valid_of ps <> [] ->
  exists q, proportion_submetered ms mains = Ok (Fin q) /\ q == qsum (valid_of ps).
Proof. exact submetered_sum. Qed.
Print Assumptions C56_submetered.

Theorem C56_submetered_none : forall mains ms, Forall (fun m => prop_is mains m None) ms ->
  proportion_submetered ms mains = Ok NaN.
Proof. exact submetered_none. Qed.
Print Assumptions C56_submetered_none.

Theorem C56_submetered_range : forall mains ms T, has_energy mains -> T <> [] -> ms <> [] ->
  Forall (fun m => in_common m mains T) ms ->
  (forall a, In a T -> exists y xs, amount mains a y /\ 0 < y /\ amounts ms a xs /\ Forall (fun x => 0 <= x) xs /\ qsum xs <= y) ->
  exists q, proportion_submetered ms mains = Ok (Fin q) /\ in_unit q.
Proof. exact submetered_range. Qed.
Print Assumptions C56_submetered_range.

Definition ex_mains : series := [(Active, Some 10); (Apparent, Some 20)].
Definition ex_kettle : series := [(Active, Some 5); (Apparent, Some 5)].
Definition ex_fridge : series := [(Apparent, Some 15); (Active, Some 1); (Reactive, None)].
Lemma ex_common m : In m [ex_kettle; ex_fridge] -> in_common m ex_mains [Active; Apparent].
Proof.
  intros I. split; [repeat constructor; cbn; intuition discriminate|]. intros a. unfold records. destruct I as [<-|[<-|[]]]; destruct a; cbn;
  (split; [intros H; try (destruct H as [H|[H|[]]]; discriminate H); split; eexists; reflexivity
          |intros [[v V] [w W]]; try discriminate; auto]).
Qed.
Example C56_example : has_energy ex_mains /\
  Forall (fun m => in_common m ex_mains [Active; Apparent]) [ex_kettle; ex_fridge] /\
  (forall a, In a [Active; Apparent] -> exists y xs, amount ex_mains a y /\ 0 < y /\ amounts [ex_kettle; ex_fridge] a xs /\
     Forall (fun x => 0 <= x) xs /\ qsum xs <= y) /\
  (exists q, proportion_of_energy ex_kettle ex_mains = Ok (Fin q) /\ q == 3 # 8) /\
  exists q, proportion_submetered [ex_kettle; ex_fridge] ex_mains = Ok (Fin q) /\ q == 4 # 5.
Proof.
  split; [intros H; vm_compute in H; discriminate|]. split; [|split; [|split]].
  - constructor; [apply ex_common; left; reflexivity|]. constructor; [apply ex_common; right; left; reflexivity|constructor].
  - intros a [<-|[<-|[]]].
    + exists 10, [5; 1]. repeat split; repeat constructor; vm_compute; discriminate.
    + exists 20, [5; 15]. repeat split; repeat constructor; vm_compute; discriminate.
  - eexists. split; [reflexivity|]. vm_compute. reflexivity.
  - eexists. split; [reflexivity|]. vm_compute. reflexivity.
Qed.

(** Documented as a number in [0,1], or NaN if the other meter has no energy.
    The mains have energy, but not of the AC type in common: NaN, or infinity if
    the submeter has some. *)
Theorem C56_nan_refuted : exists own other, has_energy other /\ in_common own other [Active] /\
  amount own Active 0 /\ proportion_of_energy own other = Ok NaN.
Proof.
  exists [(Active, Some 0)], [(Active, Some 0); (Apparent, Some 5)]. split; [intros H; vm_compute in H; discriminate|].
  split; [|split; reflexivity]. split; [repeat constructor; intros []|]. intros a. unfold records. destruct a; cbn;
  (split; [intros H; try (destruct H as [H|[]]; discriminate H); split; eexists; reflexivity|intros [[v V] [w W]]; try discriminate; auto]).
Qed.
Print Assumptions C56_nan_refuted.

(** Without an AC type in common, apparent energy is divided by active energy. *)
Theorem C56_no_common_type_refuted : exists own other q, has_energy other /\ in_common own other [] /\
  proportion_of_energy own other = Ok (Fin q) /\ 1 < q.
Proof.
  exists [(Apparent, Some 5)], [(Active, Some 4)]. eexists. split; [intros H; vm_compute in H; discriminate|].
  split; [|split; [reflexivity|vm_compute; reflexivity]]. split; [constructor|]. intros a. unfold records. destruct a; cbn;
  (split; [intros []|intros [[v V] [w W]]; discriminate]).
Qed.
Print Assumptions C56_no_common_type_refuted.

(** ** Further cases of C54 and C56 *)
(** Groups without meters before the first meter do not matter. *)
Theorem C54_leading_empty : forall ms, get_timeframe (TGroup (TGroup [] :: ms)) = get_timeframe (TGroup ms).
Proof. exact leading_empty. Qed.
Print Assumptions C54_leading_empty.
(** Where the other has used no energy, the proportion is NaN, whatever the AC types of the two; if it has
    used some, a meter without energies has a proportion of 0. *)
Theorem C56_no_energy : forall own other,
  (~ has_energy other -> proportion_of_energy own other = Ok NaN) /\
  (has_energy other -> proportion_of_energy [] other = Ok (Fin 0)).
Proof. exact no_energy. Qed.
Print Assumptions C56_no_energy.
Example C56_example_no_energy : ~ has_energy [(Active, Some 0); (Apparent, None)] /\ has_energy [(Active, Some 0); (Apparent, Some 2)].
Proof. split; [intros H; apply H; reflexivity|intros H; discriminate H]. Qed.
