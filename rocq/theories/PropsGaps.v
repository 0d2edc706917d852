(** C83: statistics of the good sections of a meter. *)
From Coq Require Import QArith.
From Verif Require Import Base TimeFrameModel TimeFrameSpec StoreModel StoreSpec StoreProofs ResultsModel ResultsSpec GoodSectionsModel GoodSectionsSpec
  EnergyModel EnergySpec EnergyProofs2 WholeModel WholeSpec WholeProofs GapsModel GapsSpec GapsProofs GapsProofs2 GapsProofs3.
Import List. Open Scope Z_scope.

Definition always : tf := mkTF None None true false false.
Definition one_power : list column := [(Power, Some Active)].
(** Every 10 s, with a gap of 10 min in the middle and one reading on its own. *)
Definition outage : list (sample (list (option Z))) :=
  map (fun i => (i, [Some 5])) ([0; 10; 20; 30; 40; 50] ++ [300] ++ [600; 610; 620; 630; 640]).
Definition outage_runs := [map (fun i => (i, [Some 5])) [0; 10; 20; 30; 40; 50]; [(300, [Some 5])]; map (fun i => (i, [Some 5])) [600; 610; 620; 630; 640]].

Lemma outage_ok : increasing outage /\ rows_within always outage outage /\ row_runs 20 outage outage_runs /\ last_time outage 640 /\ ends_there 20 outage 640 /\ complete outage.
Proof.
  split; [cbn; lia|]. split.
  { unfold rows_within, outage. cbn [map List.app]. do 12 (apply filt_keep; [split; [reflexivity|split; discriminate]|]). constructor. }
  split; [split; [reflexivity|]|].
  - split; [reflexivity|]. split; [repeat constructor; try discriminate; cbn; lia|]. cbn [outage_runs map separated fst].
    assert (L : forall (l : list Z) x y, last_of (l ++ [x]) y -> y = x) by (intros l x y (q & E); apply app_inj_tail in E; destruct E as [_ E]; symmetry; exact E).
    split; [|split; [|exact I]]; intros x y Hx (q & Hy); injection Hy as <- _.
    + apply (L [0; 10; 20; 30; 40] 50) in Hx. lia.
    + apply (L [] 300) in Hx. lia.
  - split; [exists (640, [Some 5]), (removelast outage); split; reflexivity|]. split.
    + intros r Hr [H _]. repeat (destruct Hr as [<-|Hr]; [cbn in H; lia|]). destruct Hr.
    + unfold complete, outage. cbn [map List.app]. repeat apply Forall_cons; try apply Forall_nil; discriminate.
Qed.

(** [dropout_rate()]: if the table is loaded in one chunk, the mean of the rates of
    missing readings of the runs of readings at most [msp] apart, weighted with
    their numbers of readings; readings on their own are left out, and so is the
    last reading of each run but the last one. *)
Theorem C83_dropout_partial : forall A (v : A -> bool) msp period (rows m : list (sample A)) window ms last c,
  0 <= msp -> 0 < period -> increasing rows -> Forall (fun r => v (snd r) = true) rows -> rows_within window rows m -> (2 <= length m)%nat ->
  row_runs msp m ms -> last_time m last -> ends_there msp rows last -> (length rows <= c)%nat -> long_runs (cut_runs (long_runs ms)) <> [] ->
  exists q, dropout_ignoring_gaps v msp period rows window c = Ok q /\ weighted_missing period (long_runs (cut_runs (long_runs ms))) q.
Proof. exact @gaps_once. Qed.
Print Assumptions C83_dropout_partial.

(** Whatever the chunk size: a proportion. *)
Theorem C83_range : forall A (v : A -> bool) msp period (rows m : list (sample A)) window ms last c,
  0 <= msp -> 0 < period -> increasing rows -> Forall (fun r => v (snd r) = true) rows -> rows_within window rows m -> (2 <= length m)%nat ->
  row_runs msp m ms -> last_time m last -> ends_there msp rows last -> (1 <= c)%nat -> long_runs (cut_runs (long_runs ms)) <> [] ->
  exists q, dropout_ignoring_gaps v msp period rows window c = Ok q /\ (0 <= q <= 1)%Q.
Proof. exact @gaps_range. Qed.
Print Assumptions C83_range.

(** A meter that reports every [period], with gaps longer than [msp] of any
    number and length, drops nothing, whatever the chunk size. *)
Theorem C83_gaps_ignored : forall A (v : A -> bool) msp period (rows m : list (sample A)) window ms last c,
  0 <= msp -> 0 < period -> increasing rows -> Forall (fun r => v (snd r) = true) rows -> rows_within window rows m -> (2 <= length m)%nat ->
  row_runs msp m ms -> last_time m last -> ends_there msp rows last -> (1 <= c)%nat -> long_runs (cut_runs (long_runs ms)) <> [] ->
  Forall (regular period) ms ->
  exists q, dropout_ignoring_gaps v msp period rows window c = Ok q /\ (q == 0)%Q.
Proof. exact @gaps_regular. Qed.
Print Assumptions C83_gaps_ignored.
Example C83_dropout_ex : Forall (regular 10) outage_runs /\ long_runs (cut_runs (long_runs outage_runs)) <> [] /\ 
  (exists q, dropout_ignoring_gaps present_all 20 10 outage always 3 = Ok q /\ (q == 0)%Q) /\
  (exists q, whole_dropout 10 outage always 100 = Ok q /\ (53 # 65 == q)%Q).
Proof.
  split; [repeat apply Forall_cons; try apply Forall_nil; cbn; lia|]. split; [discriminate|]. split.
  - destruct outage_ok as (H1 & H2 & H3 & H4 & H5 & H6).
    apply (C83_gaps_ignored _ present_all 20 10 outage outage always outage_runs 640 3); try assumption; try lia; try discriminate.
    + unfold complete in H6. eapply Forall_impl; [|exact H6]. cbv beta. intros r. unfold present_all. induction 1 as [|o l Ho _ IH]; [reflexivity|]. cbn [forallb]. destruct o; [exact IH|contradiction].
    + cbn; lia.
    + repeat apply Forall_cons; try apply Forall_nil; cbn; lia.
  - eexists. split; [vm_compute; reflexivity|reflexivity].
Qed.

(** Not so for a meter whose readings are all more than [msp] apart, or make up
    runs of two before another: there is no rate. *)
Theorem C83_dropout_refuted : forall A (v : A -> bool) msp period (rows m : list (sample A)) window ms last c,
  0 <= msp -> 0 < period -> increasing rows -> Forall (fun r => v (snd r) = true) rows -> rows_within window rows m -> (2 <= length m)%nat ->
  row_runs msp m ms -> last_time m last -> ends_there msp rows last -> (1 <= c)%nat -> long_runs (cut_runs (long_runs ms)) = [] ->
  dropout_ignoring_gaps v msp period rows window c = Err KeyError.
Proof. exact @gaps_none. Qed.
Print Assumptions C83_dropout_refuted.
Example C83_dropout_none : dropout_ignoring_gaps present_all 20 10 [(0, [Some 5]); (100, [Some 5]); (200, [Some 5])] always 10 = Err KeyError /\
  dropout_ignoring_gaps present_all 20 10 [(0, [Some 5]); (100, [Some 5]); (110, [Some 5])] always 10 = Ok 0%Q.
Proof. split; vm_compute; reflexivity. Qed.

(** [total_energy(sections=meter.good_sections())]: the sum of the energies of these
    pieces, whatever the chunk size. *)
Theorem C83_energy : forall columns msp a k rows m s window ms last c es,
  0 <= msp -> uses_column columns a Power k -> increasing rows -> complete rows -> rows_within window rows m -> (2 <= length m)%nat -> readings k m s ->
  row_runs msp m ms -> last_time m last -> ends_there msp rows last -> (1 <= c)%nat ->
  Forall2 (energy_of_rows k msp) (cut_runs (long_runs ms)) es ->
  energy_in_good_sections columns msp a rows window c = Ok (match long_runs (cut_runs (long_runs ms)) with [] => None | _ => Some (sumZ es) end).
Proof. exact good_energy. Qed.
Print Assumptions C83_energy.

(** It is at most the energy of the meter. *)
Theorem C83_energy_less : forall columns msp a k rows m s window ms last c c',
  0 <= msp -> uses_column columns a Power k -> increasing rows -> complete rows -> rows_within window rows m -> (2 <= length m)%nat -> readings k m s -> Forall (fun x => 0 <= snd x) s ->
  row_runs msp m ms -> last_time m last -> ends_there msp rows last -> (1 <= c)%nat -> (1 <= c')%nat ->
  exists o o', energy_in_good_sections columns msp a rows window c = Ok o /\ whole_energy columns msp a rows window c' = Ok o' /\ energy_value o <= energy_value o'.
Proof. exact good_energy_le. Qed.
Print Assumptions C83_energy_less.

(** It is not the energy of the good sections: of each section but the last what
    was used up to its last reading is lost. *)
Theorem C83_energy_refuted : forall columns msp a k rows m s window ms last c es,
  0 < msp -> uses_column columns a Power k -> increasing rows -> complete rows -> rows_within window rows m -> (2 <= length m)%nat -> readings k m s -> Forall (fun x => 0 < snd x) s ->
  row_runs msp m ms -> last_time m last -> ends_there msp rows last -> (1 <= c)%nat -> (2 <= length (long_runs ms))%nat ->
  Forall2 (energy_of_rows k msp) (long_runs ms) es ->
  exists o, energy_in_good_sections columns msp a rows window c = Ok o /\ energy_value o < sumZ es.
Proof. exact good_energy_lost. Qed.
Print Assumptions C83_energy_refuted.
Example C83_energy_ex : uses_column one_power Active Power 0 /\ readings 0 outage (map (fun r => (fst r, 5)) outage) /\ (2 <= length (long_runs outage_runs))%nat /\
  energy_of_rows 0 20 (nth 0 outage_runs []) 250 /\ energy_of_rows 0 20 (nth 2 outage_runs []) 200 /\
  energy_in_good_sections one_power 20 Active outage always 3 = Ok (Some 400) /\ whole_energy one_power 20 Active outage always 4 = Ok (Some 650).
Proof.
  split; [split; [reflexivity|]; split; [constructor; [intros []|constructor]|]; right; right; split; [reflexivity|]; split; intros [H|[]]; discriminate|].
  split; [unfold readings, outage; cbn [map List.app]; repeat constructor|]. split; [cbn; lia|]. split; [|split].
  - exists (map (fun i => (i, 5)) [0; 10; 20; 30; 40; 50]). split; [unfold readings; cbn; repeat constructor|]. right. exists 0, 50. split; [exists (0, 5), (map (fun i => (i, 5)) [10; 20; 30; 40; 50]); split; reflexivity|].
    split; [exists (50, 5), (map (fun i => (i, 5)) [0; 10; 20; 30; 40]); split; reflexivity|]. vm_compute. reflexivity.
  - exists (map (fun i => (i, 5)) [600; 610; 620; 630; 640]). split; [unfold readings; cbn; repeat constructor|]. right. exists 600, 640. split; [exists (600, 5), (map (fun i => (i, 5)) [610; 620; 630; 640]); split; reflexivity|].
    split; [exists (640, 5), (map (fun i => (i, 5)) [600; 610; 620; 630]); split; reflexivity|]. vm_compute. reflexivity.
  - split; vm_compute; reflexivity.
Qed.

(** With missing values, if the table is loaded in one chunk: the runs are those of
    the rows without a missing value, and the energy within them is that of all
    readings of the column that are present. *)
Theorem C83_missing_partial : forall columns msp a k rows m window ms c es,
  0 <= msp -> uses_column columns a Power k -> increasing rows -> rows_within window rows m -> tf_end window = None -> (length rows <= c)%nat ->
  row_spans present_all msp m ms -> (2 <= length (times_with present_all m))%nat ->
  Forall2 (energy_present k msp) (cut_runs (long_runs ms)) es ->
  energy_in_good_sections columns msp a rows window c = Ok (match long_runs (cut_runs (long_runs ms)) with [] => None | _ => Some (sumZ es) end).
Proof. exact good_energy_missing. Qed.
Print Assumptions C83_missing_partial.

(** Two columns: the second one is missing at 10 and from 40 to 80. *)
Definition two_columns : list column := [(Power, Some Active); (Power, Some Reactive)].
Definition patchy : list (sample (list (option Z))) :=
  [(0, [Some 5; Some 1]); (10, [Some 6; None]); (20, [Some 7; Some 1]); (30, [Some 5; Some 1]);
   (40, [Some 9; None]); (60, [Some 9; None]); (80, [Some 9; None]);
   (100, [Some 4; Some 1]); (110, [None; Some 1]); (120, [Some 3; Some 1])].
Definition patchy_spans := [firstn 4 patchy; [nth 4 patchy (0, [])]; [nth 5 patchy (0, [])]; [nth 6 patchy (0, [])]; skipn 7 patchy].
Example C83_missing_ex : uses_column two_columns Active Power 0 /\ increasing patchy /\ rows_within always patchy patchy /\ row_spans present_all 20 patchy patchy_spans /\
  (2 <= length (times_with present_all patchy))%nat /\
  energy_in_good_sections two_columns 20 Active patchy always 100 = Ok (Some 190) /\ energy_in_good_sections two_columns 5 Active patchy always 100 = Ok None.
Proof.
  split; [split; [reflexivity|]; split; [constructor; [intros [H|[]]; discriminate|constructor; [intros []|constructor]]|]; right; right; split; [reflexivity|]; split; intros [H|[H|[]]]; discriminate|].
  split; [cbn; lia|]. split; [unfold rows_within, patchy; do 10 (apply filt_keep; [split; [reflexivity|split; discriminate]|]); constructor|]. split; [|split; [cbn; lia|split; vm_compute; reflexivity]].
  split; [reflexivity|]. split.
  - unfold patchy_spans. cbn. constructor; [right; exists (0, [Some 5; Some 1]), [(10, [Some 6; None]); (20, [Some 7; Some 1])], (30, [Some 5; Some 1]); repeat split|].
    do 3 (constructor; [left; eexists; reflexivity|]). constructor; [right; exists (100, [Some 4; Some 1]), [(110, [None; Some 1])], (120, [Some 3; Some 1]); repeat split|constructor].
  - split; [reflexivity|]. split; [cbn; repeat constructor; try discriminate; cbn; lia|]. cbn. 
    assert (L : forall (l : list Z) x y, last_of (l ++ [x]) y -> y = x) by (intros l x y (q & E); apply app_inj_tail in E; destruct E as [_ E]; symmetry; exact E).
    repeat split; intros x y Hx (q & Hy); injection Hy as <- _.
    apply (L [0; 20] 30) in Hx. lia.
Qed.

(** If every row has a missing value, as in a table of columns that were not
    recorded at the same times, there is no good section and so no energy,
    whatever the readings and the chunk size. *)
Theorem C83_no_complete_row_refuted : forall columns msp a rows m window c, increasing rows -> (2 <= length rows)%nat -> (1 <= c)%nat -> rows_within window rows m ->
  Forall (fun r => In None (snd r)) rows -> energy_in_good_sections columns msp a rows window c = Ok None.
Proof. exact no_valid_energy. Qed.
Print Assumptions C83_no_complete_row_refuted.
Definition alternating : list (sample (list (option Z))) := [(0, [Some 5; None]); (5, [None; Some 1]); (10, [Some 5; None]); (15, [None; Some 1]); (20, [Some 5; None])].
Example C83_no_complete_row_ex : increasing alternating /\ Forall (fun r => In None (snd r)) alternating /\ rows_within always alternating alternating /\
  whole_energy two_columns 20 Active alternating always 10 = Ok (Some 100).
Proof.
  split; [cbn; lia|]. split; [repeat apply Forall_cons; try apply Forall_nil; cbn; tauto|]. split; [|vm_compute; reflexivity].
  unfold rows_within, alternating. do 5 (apply filt_keep; [split; [reflexivity|split; discriminate]|]). constructor.
Qed.
