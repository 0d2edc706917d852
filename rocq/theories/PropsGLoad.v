(** C34: loading a MeterGroup. *)
From Coq Require Import QArith Permutation Sorted.
From Verif Require Import Base TopModel EnergyModel PipelineModel ColumnsModel ResampleModel MetricsSpec FillSpec GLoadModel GLoadSpec GLoadProofs GLoadProofs2.
Open Scope Z_scope.

(** Every cell of a column that adds up is the sum of the valid readings of the meters, NaN if there are none. *)
Theorem C34_sum_partial set_ok index columns cs out : frames cs -> combine_chunks set_ok index columns cs = Ok out ->
  map fst out = columns /\ forall col cells, In (col, cells) out -> ~ averaged (fst col) -> Forall2 (fun t cell => is_sum (readings cs col t) cell) index cells.
Proof. exact (combine_sum set_ok index columns cs out). Qed.
Print Assumptions C34_sum_partial.
(** It works if no meter has a quantity to average, and with a pandas that accepts a set of columns whenever the
    averaged quantities are among the columns asked for. *)
Theorem C34_works_partial set_ok index columns cs : frames cs ->
  (forall q ty, chunk_columns cs (q, ty) -> to_average q = true -> set_ok = true /\ quantity_in q columns) ->
  exists out, combine_chunks set_ok index columns cs = Ok out.
Proof. intros F H. eexists. exact (combine_works set_ok index columns cs F H). Qed.
Print Assumptions C34_works_partial.
(** With such a pandas, voltage, power factor and frequency are means if the meters have no NaN in them. *)
Theorem C34_mean_partial index columns cs out : frames cs -> combine_chunks true index columns cs = Ok out ->
  forall q cells, In ((q, None), cells) out -> In q [Voltage; Pf; Frequency; PowerFactor] -> (forall ty, chunk_columns cs (q, ty) -> ty = None) -> complete cs (q, None) ->
  Forall2 (fun t cell => is_mean (readings cs (q, None) t) cell) index cells.
Proof. exact (combine_mean index columns cs out). Qed.
Print Assumptions C34_mean_partial.
(** The order of the meters does not matter. *)
Theorem C34_order set_ok index columns cs cs' : Permutation cs cs' -> frames cs ->
  match combine_chunks set_ok index columns cs, combine_chunks set_ok index columns cs' with
  | Ok out, Ok out' => same_frame out out'
  | Err e, Err e' => e = e'
  | _, _ => False
  end.
Proof. exact (combine_perm set_ok index columns cs cs'). Qed.
Print Assumptions C34_order.
(** From the meters' data: the index are the bins of the section, and every cell is the sum of what
    the meters contribute. *)
Theorem C34_load_partial set_ok midnight p columns ms s e index out : 0 < p -> (forall m, In m ms -> meter_ok m) ->
  load_section set_ok midnight p columns ms s e = Ok (index, out) ->
  (forall t, In t index <-> (exists k, t = midnight s + k * p) /\ s - p < t /\ t < e) /\ map fst out = columns /\
  forall col cells, In (col, cells) out -> ~ averaged (fst col) -> Forall2 (fun t cell => exists vs, Forall2 (fun m ov => contribution midnight p s e m col t ov) ms vs /\ is_sum (valid_of vs) cell) index cells.
Proof. exact (load_section_thm set_ok midnight p columns ms s e index out). Qed.
Print Assumptions C34_load_partial.
(** No contribution is outside the index if all midnights are on one grid of bins. *)
Theorem C34_no_loss_partial midnight p s e m col t v : 0 < p -> meter_ok m -> (forall t1 t2, exists k, midnight t1 = midnight t2 + k * p) ->
  contributes midnight p s e m col t v -> In t (section_index midnight p s e).
Proof. exact (on_index midnight p s e m col t v). Qed.
Print Assumptions C34_no_loss_partial.

(** A section that starts on the boundary of a bin has no time stamp in common with an earlier one. *)
Theorem C34_disjoint_partial midnight p s1 e1 s2 e2 k : 0 < p -> e1 <= s2 -> s2 = midnight s2 + k * p ->
  forall t, In t (section_index midnight p s1 e1) -> ~ In t (section_index midnight p s2 e2).
Proof. exact (sections_disjoint midnight p s1 e1 s2 e2 k). Qed.
Print Assumptions C34_disjoint_partial.

(** What is false of the code. *)
(** Any quantity to be averaged makes loading fail with the required pandas. *)
Theorem C34_voltage_refuted : exists cs, frames cs /\ combine_chunks false [0] [(Voltage, None)] cs = Err ValueError.
Proof.
  exists [Some (mkG [0] [((Voltage, None), [(0, Some 230%Q)])])]. split; [|reflexivity]. intros c [[= <-]|[]]. split; [repeat constructor; intros []|]. split; [repeat constructor; intros []|]. intros x [<-|[]]. reflexivity.
Qed.
Print Assumptions C34_voltage_refuted.
(** And otherwise a meter without a reading counts as a reading of 0. *)
Theorem C34_mean_refuted : exists cs index v, frames cs /\ readings cs (Voltage, None) 0 = [230%Q] /\ index = [0] /\
  combine_chunks true index [(Voltage, None)] cs = Ok [((Voltage, None), [Some v])] /\ (v == 115)%Q.
Proof.
  exists [Some (mkG [0] [((Voltage, None), [(0, Some 230%Q)])]); Some (mkG [0] [((Voltage, None), [(0, None)])])], [0]. eexists. split.
  - intros c [[= <-]|[[= <-]|[]]]; (split; [repeat constructor; intros []|]; split; [repeat constructor; intros []|]; intros x [<-|[]]; reflexivity).
  - repeat split. 
Qed.
Print Assumptions C34_mean_refuted.
(** Phase angles are added up. *)
Theorem C34_phase_angle_refuted : exists cs v, frames cs /\ readings cs (PhaseAngle, None) 0 = [10%Q; 20%Q] /\
  combine_chunks false [0] [(PhaseAngle, None)] cs = Ok [((PhaseAngle, None), [Some v])] /\ (v == 30)%Q.
Proof.
  exists [Some (mkG [0] [((PhaseAngle, None), [(0, Some 10%Q)])]); Some (mkG [0] [((PhaseAngle, None), [(0, Some 20%Q)])])]. eexists. split.
  - intros c [[= <-]|[[= <-]|[]]]; (split; [repeat constructor; intros []|]; split; [repeat constructor; intros []|]; intros x [<-|[]]; reflexivity).
  - repeat split.
Qed.
Print Assumptions C34_phase_angle_refuted.
Definition one (rows : list (Z * list (option Q))) : gmeter := mkGm [(Power, Some (Known Active))] rows 6.
Lemma one_ok rows : increasing (map (fun x => (fst x, None)) rows) -> meter_ok (one rows).
Proof. intros H. split; [repeat constructor; intros []|]. split; [discriminate|exact H]. Qed.
(** A meter's only reading in a section is lost. *)
Theorem C34_lone_refuted : exists m, meter_ok m /\ rows_in 0 6 (gm_rows m) = [(1, [Some 50%Q])] /\
  load_section false utc_midnight 6 (gm_cols m) [m] 0 6 = Ok ([0], [((Power, Some (Known Active)), [None])]).
Proof. exists (one [(1, [Some 50%Q])]). split; [apply one_ok; repeat constructor|]. split; reflexivity. Qed.
Print Assumptions C34_lone_refuted.
(** Bins that do not divide a day: the data of a meter whose first reading in the section is after midnight are
    lost. *)
Theorem C34_grid_refuted : exists m, meter_ok m /\ gm_rows m = [(86401, [Some 50%Q]); (86402, [Some 50%Q])] /\ exists index,
  load_section false utc_midnight 7 (gm_cols m) [m] 86395 86403 = Ok (index, [((Power, Some (Known Active)), [None; None])]).
Proof. exists (one [(86401, [Some 50%Q]); (86402, [Some 50%Q])]). split; [apply one_ok; repeat constructor; cbn; lia|]. split; [reflexivity|]. eexists. reflexivity. Qed.
Print Assumptions C34_grid_refuted.
(** A section boundary within a bin: the time stamp is in both chunks, each with the mean of its part. *)
Theorem C34_cut_refuted : exists m, meter_ok m /\
  load_sections false utc_midnight 6 (gm_cols m) [m] [(0, 3); (3, 6)] = ([([0], [((Power, Some (Known Active)), [Some (20 / 2)%Q])]); ([0], [((Power, Some (Known Active)), [Some (40 / 2)%Q])])], None) /\
  load_sections false utc_midnight 6 (gm_cols m) [m] [(0, 6)] = ([([0], [((Power, Some (Known Active)), [Some (60 / 4)%Q])])], None).
Proof. exists (one [(0, [Some 10%Q]); (1, [Some 10%Q]); (3, [Some 20%Q]); (4, [Some 20%Q])]). split; [apply one_ok; repeat constructor; cbn; lia|]. split; reflexivity. Qed.
Print Assumptions C34_cut_refuted.

(** Cases that meet the hypotheses. *)
Example C34_case : load_section false utc_midnight 6 [(Power, Some (Known Active))] [one [(0, [Some 10%Q]); (7, [Some 30%Q])]; one [(6, [Some 5%Q]); (12, [None])]] 0 18
  = Ok ([0; 6; 12], [((Power, Some (Known Active)), [Some (10 / 1)%Q; Some (30 / 1 + 5 / 1)%Q; Some (5 / 1)%Q])]).
Proof. reflexivity. Qed.
Example C34_case_ok : forall m, In m [one [(0, [Some 10%Q]); (7, [Some 30%Q])]; one [(6, [Some 5%Q]); (12, [None])]] -> meter_ok m.
Proof. intros m [<-|[<-|[]]]; apply one_ok; repeat constructor; cbn; lia. Qed.
Example C34_case_midnight : forall t1 t2, exists k, utc_midnight t1 = utc_midnight t2 + k * 6.
Proof. intros t1 t2. unfold utc_midnight. exists ((t1 / 86400 - t2 / 86400) * 14400). ring. Qed.
Example C34_case_contributes : contributes utc_midnight 6 0 18 (one [(0, [Some 10%Q]); (7, [Some 30%Q])]) (Power, Some (Known Active)) 6 30%Q.
Proof.
  exists 0%nat, 0, 0, 7. cbn. split; [reflexivity|]. split; [split; [exists (0, Some 10%Q), [(7, Some 30%Q)]; auto|exists (7, Some 30%Q), [(0, Some 10%Q)]; auto]|]. split; [lia|]. split; [split; [exists 1; reflexivity|lia]|].
  exists 0%nat. split; [lia|]. split; [split; [discriminate|reflexivity]|]. lia.
Qed.
