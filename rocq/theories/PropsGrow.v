(** C97: statistics of a meter whose stored readings change. *)
From Verif Require Import Base TimeFrameModel TimeFrameSpec StoreModel StoreSpec ResultsModel GoodSectionsModel GoodSectionsSpec EnergyModel EnergySpec WholeModel
  GoodCacheModel GrowModel GrowSpec GrowProofs.
From Verif Require AvgModel.
Import List. Open Scope Z_scope.

(** In every history of appends, replacements, [clear_cache()] and questions about the whole
    meter in which readings are appended in time order and the cache is cleared between a
    replacement and the next question, each answer is the one computed anew from what is
    stored at that time.  Missing: replacements without [clear_cache()] and questions about
    named sections (both false, see below). *)
Theorem C97_history_partial : forall columns msp c rows h, increasing rows -> (2 <= length rows)%nat -> (1 <= c)%nat -> orderly false rows h ->
  meter_history columns msp c rows h = anew columns msp c rows h.
Proof. exact meter_answered. Qed.
Print Assumptions C97_history_partial.

(** After such a history the energy is that of the readings stored (see C15). *)
Theorem C97_energy_partial : forall columns msp c a k rows h s e,
  0 <= msp -> uses_column columns a Power k -> increasing rows -> (2 <= length rows)%nat -> (1 <= c)%nat ->
  orderly false rows (h ++ [AskEnergy a]) -> readings k (rows_after rows h) s -> is_energy msp s e ->
  exists before, meter_history columns msp c rows (h ++ [AskEnergy a]) = before ++ [Energy (Ok (Some e))].
Proof. exact energy_after. Qed.
Print Assumptions C97_energy_partial.

(** And the good sections are the runs of the readings stored (see C13). *)
Theorem C97_good_partial : forall columns msp c rows h rs,
  0 <= msp -> increasing rows -> (2 <= length rows)%nat -> (1 <= c)%nat ->
  orderly false rows (h ++ [AskGood]) -> no_missing (rows_after rows h) -> runs_of msp (map fst (rows_after rows h)) rs ->
  exists e ts us before, frames_of_runs false false rs ts /\ last_closed e ts us /\
    meter_history columns msp c rows (h ++ [AskGood]) = before ++ [Good (Ok us)].
Proof. exact goods_after. Qed.
Print Assumptions C97_good_partial.

Definition first_day : readings_t := at_power [(0, 5); (10, 6); (20, 7)].
Definition growing : list step_op :=
  [AskEnergy Active; AskGood; AskEnergy Active; Append (at_power [(100, 8); (110, 9)]); AskGood; AskEnergy Active; AskGood;
   Put (at_power [(0, 1); (110, 2)]); Clear; AskEnergy Active].

Example C97_met : increasing first_day /\ orderly false first_day growing /\ orderly false first_day (firstn 4 growing ++ [AskEnergy Active]) /\
  uses_column power Active Power 0 /\ readings 0 (rows_after first_day (firstn 4 growing)) [(0, 5); (10, 6); (20, 7); (100, 8); (110, 9)] /\
  no_missing (rows_after first_day (firstn 4 growing)) /\ runs_of 10 (map fst (rows_after first_day (firstn 4 growing))) [[0; 10; 20]; [100; 110]].
Proof.
  split; [cbn; lia|]. split; [cbn; repeat split; try lia|]. split; [cbn; repeat split; try lia|].
  split; [split; [reflexivity|split; [repeat constructor; intros []|right; right; split; [reflexivity|split; intros [[=]|[]]]]]|].
  split; [repeat constructor|]. split; [repeat constructor; discriminate|].
  split; [reflexivity|]. split.
  - repeat constructor; try discriminate; cbn; lia.
  - split; [|exact Logic.I]. intros x y (q & E) (q' & E'). injection E' as <- _.
    change [0; 10; 20] with ([0; 10] ++ [20]) in E. apply app_inj_tail in E. destruct E as [_ <-]. lia.
Qed.
Example C97_answers : meter_history power 10 2 first_day growing =
  [Energy (Ok (Some 110)); Good (Ok [mkTF (Some 0) (Some 20) true false true]); Energy (Ok (Some 110));
   Good (Ok [mkTF (Some 0) (Some 20) true false false; mkTF (Some 100) (Some 110) true false true]); Energy (Ok (Some 260));
   Good (Ok [mkTF (Some 0) (Some 20) true false false; mkTF (Some 100) (Some 110) true false true]); Energy (Ok (Some 10))].
Proof. vm_compute. reflexivity. Qed.

(** Without [clear_cache()], a meter whose table was replaced by one with the same first and
    last times gives the energy and the good sections of the old table. *)
Theorem C97_put_refuted : exists columns msp a rows l c v w, increasing rows /\ increasing l /\ (2 <= length rows)%nat /\ (2 <= length l)%nat /\
  meter_history columns msp c rows [AskEnergy a; Put l; AskEnergy a] = [Energy (Ok (Some v)); Energy (Ok (Some v))] /\
  whole_energy columns msp a l tf_cleared c = Ok (Some w) /\ v <> w.
Proof. exact replaced_stale. Qed.
Print Assumptions C97_put_refuted.
Theorem C97_put_good_refuted : exists columns msp rows l c v w, increasing rows /\ increasing l /\ (2 <= length rows)%nat /\ (2 <= length l)%nat /\
  meter_history columns msp c rows [AskGood; Put l; AskGood] = [Good (Ok v); Good (Ok v)] /\
  whole_good msp (map AvgModel.complete l) tf_cleared c = Ok w /\ length v = 1%nat /\ length w = 2%nat.
Proof. exact replaced_stale_good. Qed.
Print Assumptions C97_put_good_refuted.

(** The energy of a named section stays what it was at the first question when readings
    inside the section are appended later. *)
Theorem C97_section_refuted : exists columns msp a rows l s c d cache v d' w, increasing (rows ++ l) /\ is_bounded s /\
  get_energy columns msp (fun ss => hdf_load rows tf_cleared ss 0 c) [s] [] = (Ok d, cache) /\
  get_energy columns msp (fun ss => hdf_load (rows ++ l) tf_cleared ss 0 c) [s] cache = (Ok d, cache) /\ energy_entry a d = Some v /\
  energy_process columns msp (hdf_load (rows ++ l) tf_cleared [s] 0 c) = Ok d' /\ energy_entry a d' = Some w /\ v <> w.
Proof. exact section_stale. Qed.
Print Assumptions C97_section_refuted.
