(** Property theorems about good sections (C13, C14). *)
From Verif Require Import Base TimeFrameModel TimeFrameSpec SortLib ResultsModel StoreModel StoreSpec StoreProofs StoreProofs2
  GoodSectionsModel GoodSectionsSpec GoodSectionsProofs GoodSectionsProofs2 GoodSectionsProofs3.
From Coq Require Import Permutation.
Open Scope Z_scope.

(** ** C13: good sections of one chunk are its maximal gap-free runs. *)

Theorem C13_maximal_runs_partial : forall df index msp look prev b last rs,
  valid_times df index -> increasing_times index -> (2 <= length index)%nat -> last_of index last ->
  continues msp last look b -> runs_of msp index rs ->
  exists ts, get_good_sections df msp look prev = Ok ts /\ frames_of_runs b prev rs ts.
Proof. exact good_sections_exact. Qed.
Print Assumptions C13_maximal_runs_partial.

(** Runs exist, and there is one way to form them. *)
Theorem C13_runs_exist : forall msp index, index <> [] -> exists rs, runs_of msp index rs.
Proof. exact runs_exist. Qed.
Print Assumptions C13_runs_exist.

Theorem C13_runs_unique : forall msp rs rs' index, runs_of msp index rs -> runs_of msp index rs' -> rs = rs'.
Proof. exact runs_unique. Qed.
Print Assumptions C13_runs_unique.

(** Fewer than two valid samples: no section. *)
Theorem C13_too_short : forall df msp look prev index, valid_times df index -> (length index < 2)%nat ->
  get_good_sections df msp look prev = Ok [].
Proof. exact good_sections_short. Qed.
Print Assumptions C13_too_short.

(** The rows may come in any order. *)
Theorem C13_any_order : forall df df' msp look prev, Permutation df df' -> NoDup (map fst df) ->
  get_good_sections df msp look prev = get_good_sections df' msp look prev.
Proof. exact good_sections_order. Qed.
Print Assumptions C13_any_order.

Theorem C13_nan_look_ahead_raises : forall df msp l prev index, valid_times df index -> increasing_times index ->
  (2 <= length index)%nat -> l <> [] -> Forall (fun r => snd r = false) l ->
  get_good_sections df msp (Some l) prev = Err IndexError.
Proof. exact good_sections_nan_look. Qed.
Print Assumptions C13_nan_look_ahead_raises.

Definition gs_df : list (sample bool) := [(0, true); (10, true); (15, false); (18, true); (60, true); (100, true); (105, true)].
Example C13_example :
  valid_times gs_df [0; 10; 18; 60; 100; 105] /\ increasing_times [0; 10; 18; 60; 100; 105] /\
  last_of [0; 10; 18; 60; 100; 105] 105 /\ continues 10 105 (Some [(107, false); (110, true)]) true /\
  runs_of 10 [0; 10; 18; 60; 100; 105] [[0; 10; 18]; [60]; [100; 105]] /\
  get_good_sections gs_df 10 (Some [(107, false); (110, true)]) false =
    Ok [mkTF (Some 0) (Some 18) true false false; mkTF (Some 100) None true false false].
Proof.
  split; [apply vt_spec; reflexivity|]. split; [cbn; lia|]. split; [exists [0; 10; 18; 60; 100]; reflexivity|].
  split; [right; exists [(107, false)], 110, []; split; [reflexivity|]; split; [repeat constructor|lia]|].
  split; [|reflexivity]. exact (runs_are_runs 10 [10; 18; 60; 100; 105] 0).
Qed.

(** ** C14: good sections do not depend on how the data was chunked. *)

(** Any chunks as the HDF store yields them, each with at least two valid
    rows: the combined result is that of the whole series. *)
Theorem C14_chunks_partial : forall msp rows n cs m c s e index rs last,
  0 <= msp -> (1 <= n)%nat -> increasing rows -> m <> [] -> delivers cs m c -> Forall (look_ahead_right rows n) cs ->
  chain s (map c_tf cs) e -> Forall usable_chunk cs ->
  (goes_on msp rows last -> forall x, In x m -> fst x < e) ->
  valid_times m index -> last_of index last -> runs_of msp index rs ->
  exists b ts us, (b = true <-> goes_on msp rows last) /\ frames_of_runs b false rs ts /\ last_closed e ts us /\
    good_sections_of msp (cs, None) = Ok us.
Proof. exact chunks_combined. Qed.
Print Assumptions C14_chunks_partial.

(** A series without missing values loaded from the HDF store: one answer for
    all chunk sizes and look-ahead lengths. *)
Theorem C14_chunk_size_partial : forall msp rows window section m rs last,
  0 <= msp -> increasing rows -> nan_free rows -> half_open window -> half_open section ->
  visible rows window section m -> (2 <= length m)%nat -> runs_of msp (map fst m) rs -> last_of (map fst m) last ->
  exists b e ts us, (b = true <-> goes_on msp rows last) /\
    (b = true -> (tf_end window = Some e \/ tf_end section = Some e) /\
                 forall i, inTF window i -> inTF section i -> i < e) /\
    frames_of_runs b false rs ts /\ last_closed e ts us /\
    forall n c, (1 <= n)%nat -> (1 <= c)%nat -> servable rows window c section m ->
      good_sections_of msp (hdf_load rows window [section] n c) = Ok us.
Proof. exact load_good_sections. Qed.
Print Assumptions C14_chunk_size_partial.

Theorem C14_no_rows : forall msp rows window section n c,
  increasing rows -> (1 <= c)%nat -> half_open window -> half_open section -> visible rows window section [] ->
  (unbounded_request window section -> rows = []) ->
  good_sections_of msp (hdf_load rows window [section] n c) = Ok [].
Proof. exact load_no_rows. Qed.
Print Assumptions C14_no_rows.

Definition gs_rows : list (sample bool) :=
  [(0, true); (10, true); (20, true); (60, true); (65, true); (70, true); (120, true); (500, true); (510, true); (515, true)].
Definition gs_section : tf := mkTF (Some 5) (Some 512) true false false.
Definition gs_visible : list (sample bool) :=
  [(10, true); (20, true); (60, true); (65, true); (70, true); (120, true); (500, true); (510, true)].
Example C14_example :
  increasing gs_rows /\ nan_free gs_rows /\ half_open gs_section /\
  visible gs_rows tf_cleared gs_section gs_visible /\
  servable gs_rows tf_cleared 1 gs_section gs_visible /\ servable gs_rows tf_cleared 3 gs_section gs_visible /\
  goes_on 10 gs_rows 510 /\
  good_sections_of 10 (hdf_load gs_rows tf_cleared [gs_section] 10 1) =
    Ok [mkTF (Some 10) (Some 20) true false false; mkTF (Some 60) (Some 70) true false false;
        mkTF (Some 500) (Some 512) true false true] /\
  good_sections_of 10 (hdf_load gs_rows tf_cleared [gs_section] 1 3) =
    good_sections_of 10 (hdf_load gs_rows tf_cleared [gs_section] 10 1).
Proof.
  split; [cbn; lia|]. split; [repeat constructor|]. split; [reflexivity|]. split.
  { apply (is_filter_filter _ (fun r => TimeFrameSpec.inTFb tf_cleared (fst r) && TimeFrameSpec.inTFb gs_section (fst r))).
    - intros x. rewrite Bool.andb_true_iff, !TimeFrameProofs.inTFb_spec. reflexivity.
    - reflexivity. }
  split; [split; [discriminate|intros (_ & _ & H & _); discriminate]|].
  split; [split; [discriminate|intros (_ & _ & H & _); discriminate]|].
  split; [exists (515, true); split; [cbn; tauto|]; split; [reflexivity|cbn; lia]|].
  split; vm_compute; reflexivity.
Qed.

Theorem C14_sparse_chunk_refuted : exists (rows : list (sample bool)) msp us us',
  increasing rows /\
  good_sections_of msp (hdf_load rows tf_cleared [full] 10 2) = Ok us /\
  good_sections_of msp (hdf_load rows tf_cleared [full] 10 100) = Ok us' /\
  us' = [mkTF (Some 0) (Some 30) true false false; mkTF (Some 1000) (Some 1010) true false true] /\
  us = [mkTF (Some 0) (Some 20) true false false; mkTF (Some 40) (Some 1010) true false true].
Proof. exact sparse_chunk_wrong. Qed.
Print Assumptions C14_sparse_chunk_refuted.

Theorem C14_nan_look_ahead_refuted : exists (rows : list (sample bool)) msp,
  increasing rows /\ good_sections_of msp (hdf_load rows tf_cleared [full] 1 2) = Err IndexError.
Proof. exact nan_look_raises. Qed.
Print Assumptions C14_nan_look_ahead_refuted.

(** Two sections: the second one is reported good from its very start although
    the data only resumes later. *)
Theorem C14_sections_refuted : exists (rows : list (sample bool)) msp s1 s2 u1,
  increasing rows /\ nan_free rows /\ sections_in_order [s1; s2] /\
  good_sections_of msp (hdf_load rows tf_cleared [s1; s2] 10 100) = Ok [u1; mkTF (Some 500) (Some 1010) true false true] /\
  good_sections_of msp (hdf_load rows tf_cleared [s2] 10 100) = Ok [mkTF (Some 1000) (Some 1010) true false true].
Proof. exact flag_leaks. Qed.
Print Assumptions C14_sections_refuted.

Theorem C14_combined_twice_refuted : exists (rows : list (sample bool)) msp data us data',
  increasing rows /\ nan_free rows /\ gs_process msp (hdf_load rows tf_cleared [full] 10 2) = Ok data /\
  gs_combined msp data = Ok (us, data') /\ gs_combined msp data' = Err IndexError.
Proof. exact combined_not_repeatable. Qed.
Print Assumptions C14_combined_twice_refuted.

Theorem C14_csv_refuted : exists (rows : list (sample bool)) msp,
  increasing rows /\ nan_free rows /\
  good_sections_of msp (csv_load rows tf_cleared [full] 10 100) = Ok [mkTF (Some 0) (Some 30) true false true] /\
  good_sections_of msp (csv_load rows tf_cleared [full] 10 2) =
    Ok [mkTF (Some 0) (Some 10) true false false; mkTF (Some 20) (Some 30) true false true].
Proof. exact csv_chunks_split. Qed.
Print Assumptions C14_csv_refuted.
