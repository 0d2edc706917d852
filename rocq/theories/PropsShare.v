(** C84: proportion of energy between the meters of a store. *)
From Coq Require Import QArith.
From Verif Require Import Base TimeFrameModel TimeFrameSpec StoreModel StoreSpec GoodSectionsSpec EnergyModel EnergySpec WholeSpec GapsSpec TopModel GStatsModel GStatsSpec
  ShareModel ShareSpec ShareProofs ShareProofs2.
Import List. Open Scope Z_scope.

Definition anytime : tf := mkTF None None true false false.
(** Every 10 s, with an outage of the mains meter of some minutes. *)
Definition times := [0; 10; 20; 30; 600; 610; 620].
Definition house : list (sample Z) := combine times [100; 200; 300; 100; 100; 50; 70].
Definition kettle : list (sample Z) := combine times [0; 150; 300; 0; 0; 0; 0].
Definition fridge : list (sample Z) := combine times [80; 0; 0; 80; 80; 50; 50].
Definition house_runs := [firstn 4 house; skipn 4 house].

Lemma house_ok : increasing house /\ rows_within anytime house house /\ row_runs 60 house house_runs /\ last_time house 620 /\ ends_there 60 house 620.
Proof.
  split; [cbn; lia|]. split.
  { unfold rows_within, house. cbn [combine times]. do 7 (apply filt_keep; [split; [reflexivity|split; discriminate]|]). constructor. }
  split; [split; [reflexivity|]|].
  - split; [reflexivity|]. split; [repeat constructor; try discriminate; cbn; lia|]. cbn [house_runs map separated fst].
    split; [|exact I]. intros x y (r & Hx) (q & Hy). cbn in Hx, Hy. injection Hy as <- _.
    apply (app_inj_tail [0; 10; 20] r 30 x) in Hx. destruct Hx as [_ <-]. lia.
  - split; [exists (620, 70), (removelast house); split; reflexivity|].
    intros r Hr [H _]. repeat (destruct Hr as [<-|Hr]; [cbn in H; lia|]). destruct Hr.
Qed.

(** [own.proportion_of_energy(mains)] of two meters that report at the same times: the
    ratio of their energies over the good sections of the mains, each
    without the last reading of the section except for the last section,
    whatever the chunk size, the AC types and the [max_sample_period] of the
    submeter; NaN if the mains used nothing. *)
Theorem C84_value : forall a b msp msp' mains own m m' window ms ms' last c es es',
  0 <= msp -> 0 <= msp' -> increasing mains -> map fst own = map fst mains -> rows_within window mains m -> rows_within window own m' -> (2 <= length m)%nat ->
  row_runs msp m ms -> concat ms' = m' -> same_times ms' ms -> last_time m last -> ends_there msp mains last -> (1 <= c)%nat ->
  Forall2 (is_energy msp) (cut_runs (long_runs ms)) es -> Forall2 (is_energy msp') (cut_runs (long_runs ms')) es' ->
  (sumZ es = 0 -> stored_proportion (power_meter b msp' own) (power_meter a msp mains) window c = Ok NaN) /\
  (sumZ es <> 0 -> exists q, stored_proportion (power_meter b msp' own) (power_meter a msp mains) window c = Ok (Fin q) /\ (q * inject_Z (sumZ es) == inject_Z (sumZ es'))%Q).
Proof. exact proportion_exact. Qed.
Print Assumptions C84_value.

(** If the submeter never reads more than the mains, a proportion. *)
Theorem C84_range : forall a b msp msp' mains own m window last c,
  0 <= msp -> 0 <= msp' -> increasing mains -> not_negative own -> at_most own mains -> rows_within window mains m -> (2 <= length m)%nat ->
  last_time m last -> ends_there msp mains last -> (1 <= c)%nat ->
  exists r, stored_proportion (power_meter b msp' own) (power_meter a msp mains) window c = Ok r /\ (r = NaN \/ exists q, r = Fin q /\ in_unit q).
Proof. exact proportion_unit. Qed.
Print Assumptions C84_range.

(** If the submeters together never read more than the mains, the proportion
    submetered is one. *)
Theorem C84_submetered : forall a msp mains m window last c (xs : list submeter),
  0 <= msp -> increasing mains -> rows_within window mains m -> (2 <= length m)%nat -> last_time m last -> ends_there msp mains last -> (1 <= c)%nat ->
  Forall (fun x => 0 <= fst (snd x) /\ not_negative (snd (snd x)) /\ map fst (snd (snd x)) = map fst mains) xs ->
  at_most (fold_right plus (nothing mains) (map (fun x => snd (snd x)) xs)) mains ->
  exists r, stored_submetered (map meter_of xs) (power_meter a msp mains) window c = Ok r /\ (r = NaN \/ exists q, r = Fin q /\ in_unit q).
Proof. exact submetered_unit. Qed.
Print Assumptions C84_submetered.
(** It is the sum of the proportions of the submeters, those that are NaN left
    out, and NaN if all are. *)
Theorem C84_submetered_sum : forall mains window c xs ps, Forall2 (gives mains window c) xs ps ->
  (Forall (fun p => p = None) ps -> stored_submetered xs mains window c = Ok NaN) /\
  (~ Forall (fun p => p = None) ps -> exists q, stored_submetered xs mains window c = Ok (Fin q) /\ (q == sum_given ps)%Q).
Proof. exact submetered_given. Qed.
Print Assumptions C84_submetered_sum.
Example C84_ex : at_most kettle house /\ at_most (fold_right plus (nothing house) [kettle; fridge]) house /\ Forall not_negative [kettle; fridge] /\
  (exists q, stored_proportion (power_meter Active 60 kettle) (power_meter Active 60 house) anytime 2 = Ok (Fin q) /\ (q == 1 # 3)%Q) /\
  stored_proportion (power_meter Active 60 fridge) (power_meter Apparent 5 house) anytime 2 = Ok NaN /\
  (exists q, stored_submetered [power_meter Active 60 kettle; power_meter Active 60 fridge] (power_meter Active 60 house) anytime 3 = Ok (Fin q) /\ (q == 4 # 5)%Q).
Proof.
  split; [repeat constructor; cbn; lia|]. split; [repeat constructor; cbn; lia|]. split; [repeat constructor; cbn; lia|].
  split; [eexists; split; [vm_compute; reflexivity|reflexivity]|]. split; [vm_compute; reflexivity|]. eexists. split; [vm_compute; reflexivity|reflexivity].
Qed.

(** Not so if the submeter reports at fewer times than the mains: its last
    reading is taken to hold, and the proportion can exceed 1 although it
    never reads more than the mains. *)
Theorem C84_clock_refuted : exists mains own q, increasing mains /\ increasing own /\ not_negative own /\ not_negative mains /\
  (forall t v, In (t, v) own -> exists w, In (t, w) mains /\ v <= w) /\
  stored_proportion (power_meter Active 60 own) (power_meter Active 60 mains) anytime 100 = Ok (Fin q) /\ (5 < q)%Q.
Proof.
  exists [(0, 100); (10, 0); (20, 0); (30, 0); (40, 0); (50, 0); (60, 0)], [(0, 100); (60, 0)]. eexists.
  split; [cbn; lia|]. split; [cbn; lia|]. split; [repeat constructor; cbn; lia|]. split; [repeat constructor; cbn; lia|].
  split; [intros t v [H|[H|[]]]; injection H as <- <-; [exists 100|exists 0]; (split; [cbn; tauto|lia])|]. split; [vm_compute; reflexivity|reflexivity].
Qed.
Print Assumptions C84_clock_refuted.

(** [proportion_of_upstream()] of a meter of the AC type of its upstream meter gives
    the same number. *)
Theorem C84_upstream : forall a msp msp' mains own m window last c q,
  0 <= msp -> increasing mains -> map fst own = map fst mains -> rows_within window mains m -> (2 <= length m)%nat ->
  last_time m last -> ends_there msp mains last -> (1 <= c)%nat ->
  stored_proportion (power_meter a msp' own) (power_meter a msp mains) window c = Ok (Fin q) ->
  stored_upstream (power_meter a msp' own) (power_meter a msp mains) window c = Ok (Fin q).
Proof. exact upstream_same. Qed.
Print Assumptions C84_upstream.

(** Of a meter of another AC type it gives NaN, although the proportion of energy is
    a number. *)
Theorem C84_upstream_types_refuted : forall a b msp msp' mains own m window ms last c,
  0 <= msp -> increasing mains -> map fst own = map fst mains -> rows_within window mains m -> (2 <= length m)%nat ->
  row_runs msp m ms -> last_time m last -> ends_there msp mains last -> (1 <= c)%nat -> a <> b -> long_runs (cut_runs (long_runs ms)) <> [] ->
  stored_upstream (power_meter b msp' own) (power_meter a msp mains) window c = Ok NaN.
Proof. exact upstream_types. Qed.
Print Assumptions C84_upstream_types_refuted.

(** Nor of a meter that shares a type with the other, if it also records a better one: the submeter
    records active and apparent power, the mains apparent power only, and the
    proportion of energy is 1/3. *)
Theorem C84_upstream_extra_refuted : exists own mains window c, map snd (st_columns own) = [Some Active; Some Apparent] /\ map snd (st_columns mains) = [Some Apparent] /\
  stored_upstream own mains window c = Ok NaN /\ exists q, stored_proportion own mains window c = Ok (Fin q) /\ (q == 1 # 3)%Q.
Proof.
  exists (mkStored [(Power, Some Active); (Power, Some Apparent)] 60 (map (fun x => (fst x, [Some (snd x); Some (snd x)])) kettle)), (power_meter Apparent 60 house), anytime, 2%nat.
  split; [reflexivity|]. split; [reflexivity|]. split; [vm_compute; reflexivity|]. eexists. split; [vm_compute; reflexivity|reflexivity].
Qed.
Print Assumptions C84_upstream_extra_refuted.

(** If the upstream meter has no good section with data, it raises an exception, and the
    proportion of energy is NaN. *)
Theorem C84_upstream_none_refuted : forall a b msp msp' mains own m window ms last c,
  0 <= msp -> increasing mains -> map fst own = map fst mains -> rows_within window mains m -> (2 <= length m)%nat ->
  row_runs msp m ms -> last_time m last -> ends_there msp mains last -> (1 <= c)%nat -> long_runs (cut_runs (long_runs ms)) = [] ->
  stored_upstream (power_meter b msp' own) (power_meter a msp mains) window c = Err KeyError /\
  stored_proportion (power_meter b msp' own) (power_meter a msp mains) window c = Ok NaN.
Proof. exact upstream_none. Qed.
Print Assumptions C84_upstream_none_refuted.
Example C84_upstream_ex : long_runs (cut_runs (long_runs house_runs)) <> [] /\
  (exists q, stored_upstream (power_meter Active 60 kettle) (power_meter Active 60 house) anytime 2 = Ok (Fin q) /\ (q == 1 # 3)%Q) /\
  stored_upstream (power_meter Active 60 kettle) (power_meter Apparent 60 house) anytime 2 = Ok NaN /\
  (exists q, stored_proportion (power_meter Active 60 kettle) (power_meter Apparent 60 house) anytime 2 = Ok (Fin q) /\ (q == 1 # 3)%Q) /\
  stored_upstream (power_meter Active 60 kettle) (power_meter Active 5 house) anytime 2 = Err KeyError.
Proof.
  split; [discriminate|]. split; [eexists; split; [vm_compute; reflexivity|reflexivity]|]. split; [vm_compute; reflexivity|].
  split; [eexists; split; [vm_compute; reflexivity|reflexivity]|vm_compute; reflexivity].
Qed.

(** If every row of the mains has a missing value, as in a table of columns that were
    not recorded at the same times, there is no proportion of any meter. *)
Theorem C84_no_complete_row_refuted : forall own mains m window c,
  increasing (st_rows mains) -> (2 <= length (st_rows mains))%nat -> (1 <= c)%nat -> rows_within window (st_rows mains) m ->
  Forall (fun r => In None (snd r)) (st_rows mains) ->
  stored_proportion own mains window c = Ok NaN /\ stored_upstream own mains window c = Err KeyError.
Proof. exact incomplete_mains. Qed.
Print Assumptions C84_no_complete_row_refuted.
Definition two_kinds : stored := mkStored [(Power, Some Active); (Power, Some Reactive)] 20
  [(0, [Some 5; None]); (5, [None; Some 1]); (10, [Some 5; None]); (15, [None; Some 1]); (20, [Some 5; None])].
Example C84_no_complete_row_ex : increasing (st_rows two_kinds) /\ Forall (fun r => In None (snd r)) (st_rows two_kinds) /\ rows_within anytime (st_rows two_kinds) (st_rows two_kinds).
Proof.
  split; [cbn; lia|]. split; [unfold two_kinds; cbn; repeat apply Forall_cons; try apply Forall_nil; cbn; tauto|].
  unfold rows_within, two_kinds. cbn. do 5 (apply filt_keep; [split; [reflexivity|split; discriminate]|]). constructor.
Qed.
