(** Property theorems about the data stores (C09-C12, C47). *)
From Verif Require Import Base TimeFrameModel TimeFrameSpec TimeFrameProofs StoreModel StoreSpec StoreProofs StoreProofs2.
Open Scope Z_scope.

(** A table, a window and two sections used by the examples below. *)
Definition ex_rows : list (sample Z) :=
  [(0, 5); (10, 6); (20, 7); (30, 8); (40, 9); (60, 10); (70, 11)].
Definition ex_window : tf := mkTF (Some 5) (Some 100) true false false.
Definition ex_sections : list tf :=
  [mkTF None (Some 45) true false false; mkTF (Some 45) (Some 50) true false false;
   mkTF (Some 50) None true false false].

Lemma ex_visible : Forall2 (visible ex_rows ex_window) ex_sections
  [[(10, 6); (20, 7); (30, 8); (40, 9)]; []; [(60, 10); (70, 11)]].
Proof.
  constructor; [|constructor; [|constructor; [|constructor]]].
  all: unfold visible; match goal with |- is_filter (fun r => inTF _ _ /\ inTF ?t _) _ _ =>
    apply (is_filter_filter _ (fun r => inTFb ex_window (fst r) && inTFb t (fst r))) end;
    [intros x; rewrite Bool.andb_true_iff, !inTFb_spec; reflexivity|reflexivity].
Qed.

(** ** C09: HDF load delivers exactly the rows of window ∩ sections. *)

(** Full statement except for the two unservable cases (see [servable]). *)
Theorem C09_load_partial : forall (A : Type) (rows : list (sample A)) window n c sections,
  increasing rows -> (1 <= c)%nat -> half_open window -> Forall half_open sections ->
  forall ms, Forall2 (visible rows window) sections ms -> Forall2 (servable rows window c) sections ms ->
  exists css, hdf_load rows window sections n c = (concat css, None) /\ Forall2 (section_served c) ms css.
Proof. exact @load_served. Qed.
Print Assumptions C09_load_partial.

Example C09_example : increasing ex_rows /\ half_open ex_window /\ Forall half_open ex_sections /\
  Forall2 (servable ex_rows ex_window 2) ex_sections [[(10, 6); (20, 7); (30, 8); (40, 9)]; []; [(60, 10); (70, 11)]] /\
  map c_rows (fst (hdf_load ex_rows ex_window ex_sections 0 2)) =
    [[(10, 6); (20, 7); (30, 8)]; [(30, 8); (40, 9)]; []; [(60, 10); (70, 11)]].
Proof.
  split; [simpl; lia|]. split; [reflexivity|]. split; [repeat constructor|]. split; [|reflexivity].
  constructor; [|constructor; [|constructor; [|constructor]]];
    (split; [discriminate|intros H; destruct H as [H _]; discriminate]).
Qed.

(** One section with [include_end] taken into account, and the time frames of
    its chunks; all three possible outcomes. *)
Theorem C09_section_exact : forall (A : Type) (rows : list (sample A)) window section w m n c,
  increasing rows -> (1 <= c)%nat -> intersection window section = Ok w -> tf_empty w = false ->
  (tf_start w <> None \/ tf_end w <> None) -> rows_of_period w rows m ->
  (m = [] -> hdf_load_section rows window section n c = ([mkChunk [] None w], None)) /\
  (length m = 1%nat -> hdf_load_section rows window section n c = ([], None)) /\
  ((2 <= length m)%nat -> exists cs, hdf_load_section rows window section n c = (cs, None) /\
     delivers cs m c /\ exists s e, chain s (map c_tf cs) e /\
       (tf_start w = Some s \/ (tf_start w = None /\ first_time m s)) /\
       (tf_end w = Some e \/ (tf_end w = None /\ last_time m e))).
Proof. exact @section_bounded. Qed.
Print Assumptions C09_section_exact.

Example C09_section_example : exists w,
  intersection ex_window (mkTF None (Some 40) true false true) = Ok w /\ tf_empty w = false /\ tf_end w <> None /\
  rows_of_period w ex_rows [(10, 6); (20, 7); (30, 8); (40, 9)].
Proof.
  eexists. split; [reflexivity|]. split; [reflexivity|]. split; [discriminate|].
  apply rows_of_period_filter. reflexivity.
Qed.

(** A load without any bound: empty for at most one row, exact unless the
    table has [k * c + 1] rows; then it raises after delivering everything. *)
Theorem C09_unbounded_exact : forall (A : Type) (rows : list (sample A)) window section w n c,
  increasing rows -> (1 <= c)%nat -> intersection window section = Ok w -> tf_empty w = false ->
  tf_start w = None -> tf_end w = None ->
  ((length rows <= 1)%nat -> hdf_load_section rows window section n c = ([mkChunk [] None section], None)) /\
  ((2 <= length rows)%nat -> ((length rows - 1) mod c <> 0)%nat ->
     exists cs, hdf_load_section rows window section n c = (cs, None) /\
     delivers cs rows c /\ exists s e, chain s (map c_tf cs) e /\ first_time rows s /\ last_time rows e) /\
  ((2 <= length rows)%nat -> ((length rows - 1) mod c = 0)%nat ->
     exists cs, hdf_load_section rows window section n c = (cs, Some ValueError) /\ unshared cs = rows).
Proof. exact @section_unbounded. Qed.
Print Assumptions C09_unbounded_exact.

Example C09_unbounded_example :
  map c_rows (fst (hdf_load_section ex_rows tf_cleared tf_cleared 0 4)) =
    [[(0, 5); (10, 6); (20, 7); (30, 8); (40, 9)]; [(40, 9); (60, 10); (70, 11)]].
Proof. reflexivity. Qed.

Theorem C09_single_row_refuted : exists (rows : list (sample Z)) window section m,
  increasing rows /\ half_open window /\ half_open section /\ visible rows window section m /\ m <> [] /\
  hdf_load rows window [section] 0 10 = ([], None).
Proof. exact single_row_lost. Qed.
Print Assumptions C09_single_row_refuted.

Theorem C09_unbounded_refuted : exists (rows : list (sample Z)) cs,
  increasing rows /\ hdf_load rows tf_cleared (default_sections None) 0 2 = (cs, Some ValueError) /\ unshared cs = rows.
Proof. exact unbounded_load_raises. Qed.
Print Assumptions C09_unbounded_refuted.

(** ** C10: look-ahead is exactly the following rows. *)

Theorem C10_look_ahead : forall (A : Type) (rows : list (sample A)) window sections n c ch,
  In ch (fst (hdf_load rows window sections n c)) -> c_rows ch <> [] -> look_ahead_right rows n ch.
Proof. exact @load_look. Qed.
Print Assumptions C10_look_ahead.

Example C10_example :
  map c_look (fst (hdf_load ex_rows ex_window ex_sections 2 2)) =
    [Some [(40, 9); (60, 10)]; Some [(60, 10); (70, 11)]; None; Some []].
Proof. reflexivity. Qed.

(** ** C11: each sample exactly once. *)

Theorem C11_all_data_partial : forall (A : Type) (rows : list (sample A)) window sections n c ms,
  increasing rows -> (1 <= c)%nat -> half_open window -> Forall half_open sections ->
  sections_in_order sections ->
  Forall2 (visible rows window) sections ms -> Forall2 (servable rows window c) sections ms ->
  exists m, is_filter (fun r => inTF window (fst r) /\ covers sections (fst r)) rows m /\
    power_series_all_data (hdf_load rows window sections n c) = Ok (match m with [] => None | _ => Some m end).
Proof. exact @all_data_exact. Qed.
Print Assumptions C11_all_data_partial.

Example C11_example : sections_in_order ex_sections /\
  power_series_all_data (hdf_load ex_rows ex_window ex_sections 0 2) =
    Ok (Some [(10, 6); (20, 7); (30, 8); (40, 9); (60, 10); (70, 11)]).
Proof.
  split; [|reflexivity]. intros j k a b i i' Hjk Ha Hb (_ & _ & H1) (_ & H2 & _).
  destruct j as [|[|[|j]]]; simpl in Ha; [| | |destruct j; discriminate]; injection Ha as <-;
  (destruct k as [|[|[|k]]]; simpl in Hb; [lia| | |destruct k; discriminate]); injection Hb as <-; try lia;
  try specialize (H1 _ eq_refl); try specialize (H2 _ eq_refl); simpl in *; lia.
Qed.

Theorem C11_single_row_refuted : exists (rows : list (sample Z)) window section m,
  increasing rows /\ half_open window /\ half_open section /\ visible rows window section m /\ m <> [] /\
  power_series_all_data (hdf_load rows window [section] 0 10) = Ok None.
Proof. exact single_row_all_data. Qed.
Print Assumptions C11_single_row_refuted.

(** ** C12: CSV load partitions the in-window rows. *)

(** [bs] are the blocks in which the file is read; the load is right iff no
    block contributes exactly one row. *)
Theorem C12_csv_section_partial : forall (A : Type) (rows : list (sample A)) window section m n c bs,
  increasing rows -> (1 <= c)%nat -> visible rows window section m -> cut c rows bs ->
  ((forall b k, In b bs -> visible b window section k -> length k <> 1%nat) ->
   exists cs, csv_load_section rows window section n c = (cs, None) /\ concat (map c_rows cs) = m /\
     Forall (fun ch => (2 <= length (c_rows ch) <= c)%nat) cs /\ Forall (look_ahead_right rows n) cs /\
     Forall (fun ch => exists s e, bounded (c_tf ch) s e /\ first_time (c_rows ch) s /\ last_time (c_rows ch) e) cs) /\
  (forall b k, In b bs -> visible b window section k -> length k = 1%nat ->
   snd (csv_load_section rows window section n c) = Some ValueError).
Proof. exact @csv_section. Qed.
Print Assumptions C12_csv_section_partial.

Theorem C12_csv_load_partial : forall (A : Type) (rows : list (sample A)) window n c bs,
  increasing rows -> (1 <= c)%nat -> cut c rows bs ->
  forall sections ms, Forall2 (visible rows window) sections ms ->
  (forall s b k, In s sections -> In b bs -> visible b window s k -> length k <> 1%nat) ->
  exists css, csv_load rows window sections n c = (concat css, None) /\
    Forall2 (fun m cs => concat (map c_rows cs) = m /\
       Forall (fun ch => (2 <= length (c_rows ch) <= c)%nat) cs /\ Forall (look_ahead_right rows n) cs /\
       Forall (fun ch => exists s e, bounded (c_tf ch) s e /\ first_time (c_rows ch) s /\ last_time (c_rows ch) e) cs) ms css.
Proof. exact @csv_load_all. Qed.
Print Assumptions C12_csv_load_partial.

(** A file can always be cut into blocks. *)
Theorem C12_blocks_exist : forall (A : Type) c (rows : list A), (1 <= c)%nat -> exists bs, cut c rows bs.
Proof. exact @cut_exists. Qed.
Print Assumptions C12_blocks_exist.

Example C12_example :
  cut 3 ex_rows [[(0, 5); (10, 6); (20, 7)]; [(30, 8); (40, 9); (60, 10)]; [(70, 11)]] /\
  map c_rows (fst (csv_load ex_rows (mkTF (Some 5) (Some 65) true false false) [tf_cleared] 1 3)) =
    [[(10, 6); (20, 7)]; [(30, 8); (40, 9); (60, 10)]] /\
  map c_look (fst (csv_load ex_rows (mkTF (Some 5) (Some 65) true false false) [tf_cleared] 1 3)) =
    [Some [(30, 8)]; Some [(70, 11)]].
Proof.
  split; [|split; reflexivity].
  apply (cut_cons 3 [(0, 5); (10, 6); (20, 7)] [(30, 8); (40, 9); (60, 10); (70, 11)]); [reflexivity|discriminate|].
  apply (cut_cons 3 [(30, 8); (40, 9); (60, 10)] [(70, 11)]); [reflexivity|discriminate|].
  apply cut_last; [discriminate|simpl; lia].
Qed.

Theorem C12_single_row_refuted : exists (rows : list (sample Z)) section cs,
  increasing rows /\ half_open section /\ csv_load rows tf_cleared [section] 0 2 = (cs, Some ValueError).
Proof. exact csv_single_row_raises. Qed.
Print Assumptions C12_single_row_refuted.

(** ** C47: row counts and table time frames. *)

Theorem C47_nrows : forall (A : Type) (rows : list (sample A)) window section m,
  half_open window -> half_open section -> visible rows window section m ->
  hdf_nrows rows window (Some section) = Ok (length m).
Proof. exact @nrows_exact. Qed.
Print Assumptions C47_nrows.

Theorem C47_get_timeframe_partial : forall (A : Type) (rows : list (sample A)) window,
  increasing rows -> (2 <= length rows)%nat ->
  exists t s e, hdf_get_timeframe rows window = Ok t /\ first_time rows s /\ last_time rows e /\
    (forall i, inTF t i <-> inTF window i /\ s <= i < e).
Proof. exact @get_timeframe_exact. Qed.
Print Assumptions C47_get_timeframe_partial.

Example C47_example : (2 <= length ex_rows)%nat /\ hdf_nrows ex_rows ex_window (Some tf_cleared) = Ok 6%nat.
Proof. split; [simpl; lia|reflexivity]. Qed.

(** The last stored sample is not inside the reported time frame. *)
Theorem C47_last_sample_refuted : exists (rows : list (sample Z)) t x,
  increasing rows /\ In x rows /\ hdf_get_timeframe rows tf_cleared = Ok t /\ ~ inTFc t (fst x).
Proof. exact end_row_outside_timeframe. Qed.
Print Assumptions C47_last_sample_refuted.
