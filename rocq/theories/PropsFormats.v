(** Property theorems about the two store formats (C81). *)
From Verif Require Import Base TimeFrameModel TimeFrameSpec TimeFrameProofs ResultsModel ResultsSpec
  StoreModel StoreSpec StoreProofs StoreProofs2 EnergyModel EnergySpec FormatsModel FormatsSpec FormatsProofs PropsStore.
Open Scope Z_scope.

(** The same rows kept in either format give the same series, whatever the
    chunk sizes and look-aheads, for every request both formats can serve. *)
Theorem C81_same_data_partial : forall (A : Type) (rows : list (sample A)) window sections ms n c n' c',
  increasing rows -> (1 <= c)%nat -> (1 <= c')%nat -> half_open window -> Forall half_open sections -> sections_in_order sections ->
  Forall2 (visible rows window) sections ms -> Forall2 (servable rows window c) sections ms ->
  Forall (csv_servable rows window c') sections ->
  power_series_all_data (csv_load rows window sections n' c') = power_series_all_data (hdf_load rows window sections n c).
Proof. exact @same_data. Qed.
Print Assumptions C81_same_data_partial.

Lemma ex_csv_servable : Forall (csv_servable ex_rows ex_window 10) ex_sections.
Proof.
  assert (H : forall s, length (filter (fun r => inTFb ex_window (fst r) && inTFb s (fst r)) ex_rows) <> 1%nat -> csv_servable ex_rows ex_window 10 s).
  { intros s H. apply (csv_servable_by _ _ _ _ [ex_rows]); [lia|apply cut_last; [discriminate|cbn; lia]|]. constructor; [exact H|constructor]. }
  unfold ex_sections. repeat apply Forall_cons; try apply Forall_nil; apply H; cbn; discriminate.
Qed.

Example C81_example :
  Forall2 (servable ex_rows ex_window 2) ex_sections [[(10, 6); (20, 7); (30, 8); (40, 9)]; []; [(60, 10); (70, 11)]] /\
  Forall (csv_servable ex_rows ex_window 10) ex_sections /\
  power_series_all_data (csv_load ex_rows ex_window ex_sections 0 10) =
    Ok (Some [(10, 6); (20, 7); (30, 8); (40, 9); (60, 10); (70, 11)]).
Proof.
  split; [|split; [exact ex_csv_servable|reflexivity]].
  repeat (constructor; [split; [discriminate|intros (H & _); discriminate]|]). constructor.
Qed.

(** The period a table covers does not depend on the format nor on the size of
    the blocks a file is read in. *)
Theorem C81_timeframe : forall (A : Type) (rows : list (sample A)) window c, (1 <= c)%nat ->
  csv_get_timeframe rows window c = hdf_get_timeframe rows window.
Proof. exact @same_timeframe. Qed.
Print Assumptions C81_timeframe.

Example C81_example_timeframe : csv_get_timeframe ex_rows ex_window 3 = Ok (mkTF (Some 5) (Some 70) true false false) /\
  csv_get_timeframe (@nil (sample Z)) ex_window 3 = Err IndexError.
Proof. split; reflexivity. Qed.

(** Energy is the same when the file is read in one block... *)
Theorem C81_energy_partial : forall columns msp a k rows window sections ms ss es n c n' c',
  0 <= msp -> uses_column columns a Power k -> increasing rows -> (1 <= c)%nat -> (1 <= c')%nat -> (length rows <= c')%nat ->
  half_open window -> Forall half_open sections -> Forall usable sections -> sections_in_order sections ->
  Forall2 (visible rows window) sections ms -> Forall2 (servable rows window c) sections ms -> Forall (csv_servable rows window c') sections ->
  Forall2 (readings k) ms ss -> Forall2 (is_energy msp) ss es ->
  total_energy_of columns msp a (csv_load rows window sections n' c') = Ok (sumZ es) /\
  total_energy_of columns msp a (hdf_load rows window sections n c) = Ok (sumZ es).
Proof. exact same_energy. Qed.
Print Assumptions C81_energy_partial.

Example C81_example_energy :
  total_energy_of [(Power, Some Active)] 5 Active (csv_load w_rows tf_cleared [w_section] 0 10) = Ok 30 /\
  total_energy_of [(Power, Some Active)] 5 Active (hdf_load w_rows tf_cleared [w_section] 0 2) = Ok 30.
Proof. split; reflexivity. Qed.

(** ...and never greater from a CSV file read in several blocks... *)
Theorem C81_energy_less_partial : forall columns msp a k rows window sections ms ss es n c n' c',
  0 <= msp -> uses_column columns a Power k -> increasing rows -> (1 <= c)%nat -> (1 <= c')%nat ->
  half_open window -> Forall half_open sections -> Forall usable sections -> sections_in_order sections ->
  Forall2 (visible rows window) sections ms -> Forall2 (servable rows window c) sections ms -> Forall (csv_servable rows window c') sections ->
  Forall (fun r => forall v, nth k (snd r) None = Some v -> 0 <= v) rows ->
  Forall2 (readings k) ms ss -> Forall2 (is_energy msp) ss es ->
  exists t t', total_energy_of columns msp a (hdf_load rows window sections n c) = Ok t /\
    total_energy_of columns msp a (csv_load rows window sections n' c') = Ok t' /\ t' <= t.
Proof. exact less_energy. Qed.
Print Assumptions C81_energy_less_partial.

(** ...but smaller in general: the interval between two blocks is lost. *)
Theorem C81_energy_refuted : exists columns msp rows section t t',
  uses_column columns Active Power 0 /\ increasing rows /\ half_open section /\ usable section /\
  csv_servable rows tf_cleared 2 section /\
  total_energy_of columns msp Active (hdf_load rows tf_cleared [section] 0 2) = Ok t /\
  total_energy_of columns msp Active (csv_load rows tf_cleared [section] 0 2) = Ok t' /\ t' < t.
Proof. exact energy_differs. Qed.
Print Assumptions C81_energy_refuted.

(** A section that includes its end loses its last row in a CSV store. *)
Theorem C81_end_refuted : exists (rows : list (sample Z)) section m m',
  increasing rows /\ tf_incl section = true /\ csv_servable rows tf_cleared 10 section /\
  power_series_all_data (hdf_load rows tf_cleared [section] 0 10) = Ok (Some m) /\
  power_series_all_data (csv_load rows tf_cleared [section] 0 10) = Ok (Some m') /\ (length m' < length m)%nat.
Proof. exact end_differs. Qed.
Print Assumptions C81_end_refuted.

(** A section with a single row: nothing from HDF, an exception from CSV. *)
Theorem C81_one_row_refuted : exists (rows : list (sample Z)) section,
  increasing rows /\ half_open section /\
  power_series_all_data (hdf_load rows tf_cleared [section] 0 10) = Ok None /\
  power_series_all_data (csv_load rows tf_cleared [section] 0 10) = Err ValueError.
Proof. exact one_row_differs. Qed.
Print Assumptions C81_one_row_refuted.
