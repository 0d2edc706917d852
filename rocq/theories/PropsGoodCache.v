(** C96: good sections answered with the cache of statistics. *)
From Verif Require Import Base TimeFrameModel TimeFrameSpec StoreModel StoreSpec ResultsModel GoodSectionsModel GoodSectionsSpec WholeModel WholeSpec
  GoodCacheModel GoodCacheSpec GoodCacheProofs3.
Import List. Open Scope Z_scope.

(** Every history of requests for one section each is answered as if there were no cache,
    whatever the store, when no chunk can be mistaken for another section.
    Missing: requests for several sections at once, and sections cut differently (both false,
    see below). *)
Theorem C96_singles_partial : forall msp load h, Forall (fun s => tf_empty s = false) h -> proper_chunks load h -> no_mistaken_chunk load h ->
  fst (serve_good msp load (map (fun s => [s]) h) []) = map (fun s => good_sections_of msp (load [s])) h.
Proof. exact singles. Qed.
Print Assumptions C96_singles_partial.

(** On an HDF store, for any chunk size: sections inside the window, any two of them the
    same or without a common instant (the days of a year, asked for in any order, again and
    again). *)
Theorem C96_sections_partial : forall msp rows window c h, increasing rows -> (1 <= c)%nat ->
  Forall is_bounded h -> Forall (inside_window window) h -> same_or_apart h ->
  meter_goods msp rows window c (map (fun s => [s]) h) = map (fun s => good_sections_of msp (hdf_load rows window [s] 10 c)) h.
Proof. exact sections_answered. Qed.
Print Assumptions C96_sections_partial.

Definition fr (a b : Z) : tf := mkTF (Some a) (Some b) true false false.
Definition ex_rows : list (sample bool) := map (fun t => (t, true)) [0; 10; 20; 30; 40; 200; 210; 220; 300; 310].

Example C96_sections_met : increasing ex_rows /\ Forall is_bounded [fr 0 100; fr 200 300; fr 0 100] /\
  Forall (inside_window (fr 0 500)) [fr 0 100; fr 200 300; fr 0 100] /\ same_or_apart [fr 0 100; fr 200 300; fr 0 100].
Proof.
  split; [cbn; lia|]. split; [repeat constructor; eexists; eexists; (split; [reflexivity|split; [reflexivity|split; [reflexivity|lia]]])|].
  split; [repeat constructor; cbn; intros x [= <-]; eexists; (split; [reflexivity|lia])|].
  intros s s' [<-|[<-|[<-|[]]]] [<-|[<-|[<-|[]]]]; try (left; reflexivity); right; intros i [(_ & A & B) (_ & C & D)];
    specialize (A _ eq_refl); specialize (B _ eq_refl); specialize (C _ eq_refl); specialize (D _ eq_refl); lia.
Qed.
Example C96_sections_example : meter_goods 10 ex_rows (fr 0 500) 2 [[fr 0 100]; [fr 200 300]; [fr 0 100]] =
  [Ok [mkTF (Some 0) (Some 40) true false true]; Ok [mkTF (Some 200) (Some 220) true false true]; Ok [mkTF (Some 0) (Some 40) true false true]].
Proof. vm_compute. reflexivity. Qed.

(** Asked for without naming any section, any number of times, a meter gives the answer it
    would give without a cache. *)
Theorem C96_whole : forall msp rows window c n ss, increasing rows -> (2 <= length rows)%nat -> (1 <= c)%nat -> stat_sections rows window = Ok ss ->
  meter_goods msp rows window c (repeat ss n) = repeat (whole_good msp rows window c) n.
Proof. exact whole_answered. Qed.
Print Assumptions C96_whole.

(** Then every answer consists of the maximal runs of samples (see C82). *)
Theorem C96_runs_partial : forall msp rows window m rs last n ss,
  0 <= msp -> increasing rows -> (2 <= length rows)%nat -> nan_free rows -> rows_within window rows m -> (2 <= length m)%nat ->
  runs_of msp (map fst m) rs -> last_of (map fst m) last ->
  (goes_on msp rows last -> tf_end window <> Some last) -> stat_sections rows window = Ok ss ->
  exists b e ts us, (b = true <-> goes_on msp rows last) /\ (b = true -> tf_end window = Some e) /\
    frames_of_runs b false rs ts /\ last_closed e ts us /\
    forall c, (1 <= c)%nat -> meter_goods msp rows window c (repeat ss n) = repeat (Ok us) n.
Proof. exact runs_answered. Qed.
Print Assumptions C96_runs_partial.

Example C96_runs_example : meter_goods 10 ex_rows tf_cleared 3 (repeat [mkTF (Some 0) (Some 310) true false true] 2) =
  repeat (Ok [fr 0 40; fr 200 220; mkTF (Some 300) (Some 310) true false true]) 2 /\ stat_sections ex_rows tf_cleared = Ok [mkTF (Some 0) (Some 310) true false true].
Proof. split; vm_compute; reflexivity. Qed.

(** Two sections that follow each other: the second time the same request raises. *)
Theorem C96_repeat_refuted : exists msp rows c A B us, increasing rows /\ nan_free rows /\ is_bounded A /\ is_bounded B /\ tf_end A = tf_start B /\
  meter_goods msp rows tf_cleared c [[A; B]; [A; B]] = [Ok us; Err IndexError].
Proof. exact repeat_raises. Qed.
Print Assumptions C96_repeat_refuted.

(** The answer depends on what was asked before: a run over two sections is cut
    in two when the first section alone was asked for earlier. *)
Theorem C96_order_refuted : exists msp rows c A B a0 us us', increasing rows /\ nan_free rows /\ is_bounded A /\ is_bounded B /\ tf_end A = tf_start B /\
  meter_goods msp rows tf_cleared c [[A; B]] = [Ok us] /\ meter_goods msp rows tf_cleared c [[A]; [A; B]] = [a0; Ok us'] /\
  length us = 1%nat /\ length us' = 2%nat.
Proof. exact order_matters. Qed.
Print Assumptions C96_order_refuted.

(** After two requests for a longer section, the period of one of its chunks is answered with
    its good section twice, once without an end. *)
Theorem C96_chunk_refuted : exists msp rows c A B x y, increasing rows /\ nan_free rows /\ is_bounded A /\ is_bounded B /\
  meter_goods msp rows tf_cleared c [[B]] = [Ok [y]] /\
  (exists a1 a2, meter_goods msp rows tf_cleared c [[A]; [A]; [B]] = [a1; a2; Ok [x; y]]) /\ tf_start x = tf_start y /\ tf_end x = None.
Proof. exact chunk_twice. Qed.
Print Assumptions C96_chunk_refuted.

(** After two requests for a section that reaches out of the window, the part in the window is
    answered with every good section twice: the time covered doubles. *)
Theorem C96_window_refuted : exists msp rows window c A B x y, increasing rows /\ nan_free rows /\ is_bounded A /\ is_bounded B /\
  meter_goods msp rows window c [[B]] = [Ok [y]] /\
  (exists a1 a2, meter_goods msp rows window c [[A]; [A]; [B]] = [a1; a2; Ok [x; y]]) /\ same_ends x y.
Proof. exact window_twice. Qed.
Print Assumptions C96_window_refuted.
