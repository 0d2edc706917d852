(** C108: loading chunk by chunk from an HDF store while the table grows. *)
From Coq Require Import Lia.
From Verif Require Import Base TimeFrameModel TimeFrameSpec StoreModel StoreSpec LiveModel LiveSpec LiveProofs.
Open Scope nat_scope.

(** If neither the table nor the window of the store changes between chunks, the caller gets what [load] of
    that table gives, whenever they ask for the next chunk. *)
Theorem C108_still : forall A (rows : list (sample A)) rows_at window window_at sections n_look csize step,
  (forall k, rows_at k = rows) -> (forall k, window_at k = window) ->
  live_load rows_at window_at step sections n_look csize = hdf_load rows window sections n_look csize.
Proof. intros. apply still_load; assumption. Qed.
Print Assumptions C108_still.
Example C108_still_example : exists rows : list (sample Z), length (fst (live_load (fun _ => rows) (fun _ => tf_cleared) 0 [tf_cleared] 0 2)) = 2.
Proof. exists [(10, 1); (20, 2); (30, 3); (40, 4)]%Z. reflexivity. Qed.

(** If rows are appended between chunks, all outside the window or the sections asked for, the caller gets the
    chunks of the table as it was: the same rows and time frames, and the same error.  Rows to look ahead at
    may come in addition (what is missing for equality); if none are asked for, the result is the same. *)
Theorem C108_past_partial : forall A (rows : list (sample A)) rows_at window sections n_look csize,
  half_open window -> Forall half_open sections -> appended rows window sections rows_at ->
  Forall2 same_chunk (fst (hdf_load rows window sections n_look csize)) (fst (live_load rows_at (fun _ => window) 0 sections n_look csize)) /\
  snd (hdf_load rows window sections n_look csize) = snd (live_load rows_at (fun _ => window) 0 sections n_look csize).
Proof. intros A rows rows_at window sections n c HW HS G. exact (grown_load rows rows_at window n c HW sections 0 HS G). Qed.
Print Assumptions C108_past_partial.
Theorem C108_past : forall A (rows : list (sample A)) rows_at window sections csize,
  half_open window -> Forall half_open sections -> appended rows window sections rows_at ->
  live_load rows_at (fun _ => window) 0 sections 0 csize = hdf_load rows window sections 0 csize.
Proof. intros. apply grown_exact; assumption. Qed.
Print Assumptions C108_past.
Definition past_rows : list (sample Z) := [(10, 1); (20, 2); (30, 3); (40, 4)]%Z.
Definition past_at (k : nat) : list (sample Z) := past_rows ++ repeat (60, 5)%Z k.
Definition past_section : tf := mkTF (Some 10%Z) (Some 50%Z) true false false.
Example C108_past_example : half_open tf_cleared /\ Forall half_open [past_section] /\ appended past_rows tf_cleared [past_section] past_at /\
  length (fst (live_load past_at (fun _ => tf_cleared) 0 [past_section] 1 2)) = 2.
Proof.
  split; [reflexivity|]. split; [repeat constructor|]. split; [|reflexivity]. intros k. exists (repeat (60, 5)%Z k). split; [reflexivity|].
  apply Forall_forall. intros r I. apply repeat_spec in I. subst r. intros s [<-|[]] [_ (_ & _ & E)]. specialize (E _ eq_refl). cbn in E. lia.
Qed.

(** The look-ahead of a chunk does change: rows appended after the section are shown there. *)
Theorem C108_look_refuted : exists (rows : list (sample Z)) rows_at window sections csize,
  half_open window /\ Forall half_open sections /\ appended rows window sections rows_at /\
  live_load rows_at (fun _ => window) 0 sections 1 csize <> hdf_load rows window sections 1 csize.
Proof.
  exists past_rows, past_at, tf_cleared, [past_section], 2. destruct C108_past_example as (H1 & H2 & H3 & _). split; [exact H1|]. split; [exact H2|]. split; [exact H3|]. vm_compute. discriminate.
Qed.
Print Assumptions C108_look_refuted.

(** Without a window and sections it is false that the caller gets the table as it was at the beginning, or as
    it is when they come to the end: if rows are appended after the first chunk, the last chunk has the first of
    them and none of the others, however many there are. *)
Theorem C108_one_more_refuted : forall A (rows : list (sample A)) rows_at x csize chunks,
  rows_at 0 = rows -> (forall k, 0 < k -> exists new, rows_at k = rows ++ x :: new) -> 1 <= csize < length rows ->
  live_load rows_at (fun _ => tf_cleared) 0 [tf_cleared] 0 csize = (chunks, None) ->
  exists before final k, chunks = before ++ [final] /\ 1 <= length before /\ c_rows final = skipn k rows ++ [x] /\ k < length rows.
Proof. intros A rows rows_at x c cs. apply one_new. Qed.
Print Assumptions C108_one_more_refuted.
Example C108_one_more_example : exists chunks, (forall k, 0 < k -> exists new, past_at (2 * k) = past_rows ++ (60, 5)%Z :: new) /\
  live_load (fun k => past_at (2 * k)) (fun _ => tf_cleared) 0 [tf_cleared] 0 2 = (chunks, None) /\ map (@c_rows Z) chunks = [[(10, 1); (20, 2); (30, 3)]; [(30, 3); (40, 4); (60, 5)]]%Z.
Proof.
  eexists. split; [|split; [vm_compute; reflexivity|reflexivity]]. intros k H. destruct k; [lia|]. exists (repeat (60, 5)%Z (k + S (k + 0))). reflexivity.
Qed.

(** The window of the store is read once for each section, when the section is begun: changing it between
    chunks does not affect the rest of that section, and it does affect the next one. *)
Theorem C108_window : forall A (rows_at : nat -> list (sample A)) window_at window_at' step section n_look csize,
  window_at step = window_at' step ->
  live_load rows_at window_at step [section] n_look csize = live_load rows_at window_at' step [section] n_look csize.
Proof. intros A rows_at w w' step s n c E. cbn [live_load]. unfold live_section. rewrite E. reflexivity. Qed.
Print Assumptions C108_window.
Definition narrowed : nat -> tf := fun k => match k with 0 => tf_cleared | S _ => past_section end.
Example C108_window_example : narrowed 0 = (fun _ => tf_cleared) 0 /\ narrowed 1 <> tf_cleared /\
  fst (live_load (fun _ => past_rows) narrowed 0 [tf_cleared] 0 2) <> [].
Proof. split; [reflexivity|]. split; vm_compute; discriminate. Qed.
Theorem C108_window_refuted : exists (rows : list (sample Z)) window_at sections,
  window_at 0 = tf_cleared /\
  live_load (fun _ => rows) window_at 0 sections 0 10 <> hdf_load rows tf_cleared sections 0 10 /\
  snd (live_load (fun _ => rows) window_at 0 sections 0 10) = None.
Proof.
  exists (past_rows ++ [(60, 5)]%Z), narrowed, [past_section; tf_cleared]. split; [reflexivity|]. split; [vm_compute; discriminate|reflexivity].
Qed.
Print Assumptions C108_window_refuted.
