(** C72: training and applying Hart's algorithm. *)
From Coq Require Import String QArith Qabs Sorted Lia.
From Verif Require Import Base HartModel SteadyModel ClusterModel HartRunModel HartRunSpec HartRunProofs HartRunProofs2.
Import List. Open Scope list_scope. Open Scope nat_scope.

(** Training: the centroids are the clusters of the pairs of the transitions of
    the mains of the first house; each appliance is matched with the cluster whose
    predicted column, which follows the switches of this cluster, has the least squared
    error on the readings of the appliance. *)
Theorem C72_train : forall ms p s column readings rest apps s', (0 <= p_noise p)%Q -> StronglySorted Z.lt (map fst readings) -> NoDup (map fst apps) ->
  partial_fit ms p s ((column, readings) :: rest) apps = (s', None) ->
  exists steady trans pairs table centroids cols matches,
    find_steady_states 1 (as_rows readings) (p_threshold p) (p_noise p) = Ok (steady, trans) /\ trans <> [] /\
    pair column (p_buffer p) (p_min_tol p) (p_percent p) (p_large p) 1 trans = Ok pairs /\
    hart_clusters ms (map as_pair pairs) [ptype_of column] = Ok table /\ centroids = map snd (concat table) /\ centroids <> [] /\
    all_follow trans centroids (map fst readings) cols /\
    s' = mkHart (Some (map fst apps)) (Some (p_threshold p, p_noise p)) (Some centroids) (Some matches) /\
    forall name truths, In (name, truths) apps -> exists truth later j, truths = truth :: later /\ get matches name = Some j /\ best_match cols truth j.
Proof. exact train_thm. Qed.
Print Assumptions C72_train.

(** Predictions of a trained model for one frame of mains that has transitions:
    the times of the frame, one column for each appliance, and this column
    follows the switches of the cluster of the appliance. *)
Theorem C72_predictions : forall ms p s column readings rest apps s' test steady trans,
  (0 <= p_noise p)%Q -> StronglySorted Z.lt (map fst readings) -> NoDup (map fst apps) ->
  partial_fit ms p s ((column, readings) :: rest) apps = (s', None) ->
  StronglySorted Z.lt (map fst test) -> find_steady_states 1 (as_rows test) (p_threshold p) (p_noise p) = Ok (steady, trans) -> trans <> [] ->
  exists centroids matches cols out, h_centroids s' = Some centroids /\ h_matches s' = Some matches /\
    all_follow trans centroids (map fst test) cols /\
    disaggregate_chunk s' [(1, as_rows test)] = Ok [(map fst test, out)] /\ map fst out = distinct (map fst apps) /\
    forall a, In a (map fst apps) -> exists j col, get matches a = Some j /\ nth_error cols j = Some col /\ get out a = Some col.
Proof.
  intros ms p s column readings rest apps s' test steady trans HN S N H S' EF NT.
  destruct (train_thm ms p s column readings rest apps s' HN S N H) as (st0 & tr0 & pairs & table & centroids & cols0 & matches & _ & _ & _ & _ & _ & NC & [L0 _] & -> & M).
  destruct (disaggregate_thm (map fst apps) (p_threshold p) (p_noise p) centroids matches test steady trans) as (cols & out & AF & ED & KO & GO); try assumption.
  - intros a I. apply in_map_iff in I. destruct I as ([a' ts] & <- & I). destruct (M a' ts I) as (truth & later & j & _ & E & (x & B & _)). exists j. split; [exact E|].
    rewrite <- L0, <- (map_length (fun col => error col truth) cols0). apply nth_error_Some. congruence.
  - exists centroids, matches, cols, out. repeat (split; [first [reflexivity|assumption]|]). exact GO.
Qed.
Print Assumptions C72_predictions.

(** ** A concrete case *)

Definition ex_shift (rows : list (list Q)) : list (list Q) := rows.
Definition ex_params : params := mkParams 20 (inject_Z 70) (inject_Z 15) (inject_Z 100) (35 # 1000) (inject_Z 1000).
Definition watts (l : list Z) : list Q := map inject_Z l.
Definition at_times (l : list Z) : list (Z * Q) := combine (map Z.of_nat (seq 1 (List.length l))) (watts l).
Definition ex_mains : list (Z * Q) := at_times [0; 0; 100; 100; 0; 0; 300; 300; 300; 0; 0]%Z.
Definition ex_apps : list (string * list (list Q)) :=
  [("kettle"%string, [watts [0; 0; 0; 0; 0; 0; 300; 300; 300; 0; 0]%Z]); ("lamp"%string, [watts [0; 0; 100; 100; 0; 0; 0; 0; 0; 0; 0]%Z])].
Definition ex_trained : hart := fst (partial_fit ex_shift ex_params new_hart [(HartModel.Active, ex_mains)] ex_apps).
Definition ex_test : list (Z * Q) := at_times [0; 0; 290; 290; 0; 0; 110; 110; 110; 0]%Z.

Example C72_example_train :
  (0 <= p_noise ex_params)%Q /\ StronglySorted Z.lt (map fst ex_mains) /\ NoDup (map fst ex_apps) /\
  partial_fit ex_shift ex_params new_hart [(HartModel.Active, ex_mains)] ex_apps = (ex_trained, None) /\
  h_matches ex_trained = Some [("kettle"%string, 1); ("lamp"%string, 0)].
Proof.
  split; [discriminate|]. split; [repeat constructor|]. split; [repeat constructor; cbn; intuition discriminate|]. split; vm_compute; reflexivity.
Qed.

Example C72_example_predict :
  (exists steady trans, find_steady_states 1 (as_rows ex_test) (p_threshold ex_params) (p_noise ex_params) = Ok (steady, trans) /\ trans <> []) /\
  disaggregate_chunk ex_trained [(1, as_rows ex_test)] =
    Ok [(map fst ex_test, [("kettle"%string, [0; 0; 0; 300; 0; 0; 0; 0; 0; 0]%Z); ("lamp"%string, [0; 0; 0; 0; 0; 0; 0; 100; 100; 0]%Z)])].
Proof. split; [do 2 eexists; split; [vm_compute; reflexivity|discriminate]|vm_compute; reflexivity]. Qed.

(** ** What does not hold *)

(** Training chunk by chunk keeps only what the last chunk taught. *)
Theorem C72_chunkwise_refuted : forall ms p s1 s2 first rest1 rest2 apps s',
  partial_fit ms p s1 (first :: rest1) apps = (s', None) -> partial_fit ms p s2 (first :: rest2) apps = (s', None).
Proof. exact train_forgets. Qed.
Print Assumptions C72_chunkwise_refuted.

(** The readings of other houses than the first one are not used. *)
Theorem C72_houses_refuted : forall ms p s first rest1 rest2 apps1 apps2,
  Forall2 (fun a b => fst a = fst b /\ hd_error (snd a) = hd_error (snd b)) apps1 apps2 ->
  partial_fit ms p s (first :: rest1) apps1 = partial_fit ms p s (first :: rest2) apps2.
Proof. exact train_first_house. Qed.
Print Assumptions C72_houses_refuted.

(** A frame of mains without transitions cannot be disaggregated. *)
Theorem C72_quiet_refuted : forall apps threshold noise centroids matches cols0 rows0 steady rest,
  find_steady_states cols0 rows0 threshold noise = Ok (steady, []) ->
  disaggregate_chunk (mkHart apps (Some (threshold, noise)) (Some centroids) matches) ((cols0, rows0) :: rest) = Err UnboundLocalError.
Proof. exact quiet_thm. Qed.
Print Assumptions C72_quiet_refuted.
Example C72_example_quiet : disaggregate_chunk ex_trained [(1, as_rows (at_times [100; 100; 100]%Z))] = Err UnboundLocalError /\
  disaggregate_chunk ex_trained [(1, as_rows (at_times [0; 0; 0]%Z))] = Err IndexError.
Proof. split; vm_compute; reflexivity. Qed.

(** Of several frames only the last one gets a prediction. *)
Theorem C72_frames_refuted : forall s mains r, disaggregate_chunk s mains = Ok r ->
  exists cols rows out, last_opt mains = Some (cols, rows) /\ r = [(map fst rows, out)].
Proof. exact last_frame. Qed.
Print Assumptions C72_frames_refuted.

(** And this prediction is made from the transitions of the first one: here nothing is
    switched on, though the second frame alone gives another prediction. *)
Theorem C72_first_frame_refuted : exists a b r r', disaggregate_chunk ex_trained [(1, a); (1, b)] = Ok r /\ disaggregate_chunk ex_trained [(1, b)] = Ok r' /\
  map fst r = map fst r' /\ r <> r'.
Proof.
  exists (as_rows ex_test), (map (fun x => ((fst x + 100)%Z, snd x)) (as_rows ex_test)). do 2 eexists. split; [vm_compute; reflexivity|]. split; [vm_compute; reflexivity|]. split; [reflexivity|discriminate].
Qed.
Print Assumptions C72_first_frame_refuted.

(** An appliance switched on at the last reading counts as on from the first one. *)
Theorem C72_last_reading_refuted : disaggregate_chunk ex_trained [(1, as_rows (at_times [0; 0; 0; 0; 100]%Z))] =
  Ok [([1; 2; 3; 4; 5]%Z, [("kettle"%string, [0; 0; 0; 0; 0]%Z); ("lamp"%string, [100; 100; 100; 100; 0]%Z)])].
Proof. vm_compute. reflexivity. Qed.
Print Assumptions C72_last_reading_refuted.

(** The predictions can exceed the mains: two appliances may be matched with the
    same cluster, and then both get its power. *)
Definition ex_twins : list (string * list (list Q)) :=
  [("lamp"%string, [watts [0; 0; 100; 100; 0; 0; 0; 0; 0; 0; 0]%Z]); ("radio"%string, [watts [0; 0; 60; 60; 0; 0; 0; 0; 0; 0; 0]%Z])].
Theorem C72_sum_refuted : exists s' test a b, partial_fit ex_shift ex_params new_hart [(HartModel.Active, ex_mains)] ex_twins = (s', None) /\
  disaggregate_chunk s' [(1, as_rows test)] = Ok [(map fst test, [("lamp"%string, a); ("radio"%string, b)])] /\
  nth_error test 3 = Some (4%Z, inject_Z 100) /\ nth_error a 3 = Some 100%Z /\ nth_error b 3 = Some 100%Z.
Proof.
  exists (fst (partial_fit ex_shift ex_params new_hart [(HartModel.Active, ex_mains)] ex_twins)), ex_mains. do 2 eexists. split; [vm_compute; reflexivity|]. split; [vm_compute; reflexivity|]. split; [reflexivity|]. split; reflexivity.
Qed.
Print Assumptions C72_sum_refuted.

Example C72_example_untrained : disaggregate_chunk new_hart [(1, as_rows ex_test)] = Err AttributeError /\ disaggregate_chunk ex_trained [] = Err UnboundLocalError /\
  snd (partial_fit ex_shift ex_params new_hart [] ex_apps) = Some IndexError /\
  snd (partial_fit ex_shift ex_params new_hart [(HartModel.Reactive, ex_mains)] ex_apps) = Some AttributeError.
Proof. repeat split; vm_compute; reflexivity. Qed.

(** A mains without transitions cannot be trained on, and the old centroids and matches stay beside the new
    list of appliances. *)
Theorem C72_train_quiet_refuted : forall ms p s column readings rest apps steady,
  find_steady_states 1 (map (fun r => (fst r, [snd r])) readings) (p_threshold p) (p_noise p) = Ok (steady, []) ->
  partial_fit ms p s ((column, readings) :: rest) apps =
    (mkHart (Some (map fst apps)) (Some (p_threshold p, p_noise p)) (h_centroids s) (h_matches s), Some AttributeError).
Proof. exact train_quiet. Qed.
Print Assumptions C72_train_quiet_refuted.
Example C72_example_train_quiet : exists steady, find_steady_states 1 (as_rows (at_times [100; 100; 100]%Z)) (p_threshold ex_params) (p_noise ex_params) = Ok (steady, []).
Proof. eexists. vm_compute. reflexivity. Qed.

(** The centroids: the first components of what the clustering makes of the mean steps of the pairs. *)
Theorem C72_centroids : forall ms p s column readings rest apps s', (0 <= p_noise p)%Q -> StronglySorted Z.lt (map fst readings) -> NoDup (map fst apps) ->
  partial_fit ms p s ((column, readings) :: rest) apps = (s', None) ->
  exists steady trans pairs points,
    find_steady_states 1 (as_rows readings) (p_threshold p) (p_noise p) = Ok (steady, trans) /\
    pair column (p_buffer p) (p_min_tol p) (p_percent p) (p_large p) 1 trans = Ok pairs /\
    Forall2 sized pairs points /\ points <> [] /\ h_centroids s' = Some (flat_map (firstn 1) (ms points)).
Proof. exact train_centroids. Qed.
Print Assumptions C72_centroids.
