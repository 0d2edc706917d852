(** C112: filling the gaps of iAWE data. *)
From Coq Require Import QArith Lia.
From Verif Require Import Base IaweModel IaweSpec IaweProofs.
Import List. Open Scope list_scope. Open Scope nat_scope.

(** The frame that is stored has the times asked for and the columns there were.  At each of these times it has
    the reading of that time, if there is one; otherwise zero for a power, and for any other quantity the median
    of its readings. *)
Theorem C112_filled : forall median idx f, regular f ->
  fr_index (reindex_fill_na median idx f) = idx /\ length (fr_columns (reindex_fill_na median idx f)) = length (fr_columns f) /\
  forall j c, nth_error (fr_columns f) j = Some c -> exists c', nth_error (fr_columns (reindex_fill_na median idx f)) j = Some c' /\
    is_power c' = is_power c /\ length (col_values c') = length idx /\
    forall i t, nth_error idx i = Some t ->
      (forall x, reading f c t x -> nth_error (col_values c') i = Some (Some x)) /\
      ((forall x, ~ reading f c t x) -> nth_error (col_values c') i = Some (if is_power c then Some 0%Q else median (present (col_values c)))).
Proof.
  intros median idx f [ND _]. split; [reflexivity|]. split; [apply map_length|]. intros j c H. exists (fill_column median idx f c). cbn [reindex_fill_na fr_columns]. rewrite nth_error_map, H. split; [reflexivity|]. split; [reflexivity|].
  split; [unfold fill_column, fillna, reindexed; cbn [col_values]; rewrite !map_length; reflexivity|]. intros i t I. apply filled; assumption.
Qed.
Print Assumptions C112_filled.
Definition ex_frame : frame := mkFrame [0; 60; 240]%Z [mkCol true [Some (5 # 1); None; Some (7 # 1)]%Q; mkCol false [Some (230 # 1); Some (231 # 1); None]%Q].
Definition ex_median (l : list Q) : option Q := match l with [] => None | x :: _ => Some x end.
Example C112_filled_example : regular ex_frame /\
  reindex_fill_na ex_median [0; 60; 120]%Z ex_frame = mkFrame [0; 60; 120]%Z [mkCol true [Some (5 # 1); Some 0; Some 0]%Q; mkCol false [Some (230 # 1); Some (231 # 1); Some (230 # 1)]%Q].
Proof. split; [split; [repeat constructor; cbn; intuition discriminate|repeat constructor]|reflexivity]. Qed.

(** The check fails if and only if a quantity other than power has no reading at all (and a time is asked for);
    otherwise that frame is stored. *)
Theorem C112_check : forall median idx f, is_median median -> regular f ->
  (fill_and_check median idx f = Err AssertionError <-> idx <> [] /\ exists c, In c (fr_columns f) /\ is_power c = false /\ forall x, ~ In (Some x) (col_values c)) /\
  (forall g, fill_and_check median idx f = Ok g -> g = reindex_fill_na median idx f) /\ (forall e, fill_and_check median idx f = Err e -> e = AssertionError).
Proof. intros median idx f ME [ND _]. apply check_ok; assumption. Qed.
Print Assumptions C112_check.
Example C112_check_example : is_median ex_median /\ (exists g, fill_and_check ex_median [0; 60; 120]%Z ex_frame = Ok g) /\
  fill_and_check ex_median [0%Z] (mkFrame [0%Z] [mkCol false [None]]) = Err AssertionError.
Proof. split; [intros [|x l]; cbn; split; congruence|]. split; [eexists; reflexivity|reflexivity]. Qed.

(** It is false that the stored data tell measurements from gaps: a meter that was never recorded is stored as one
    that used no power all the time. *)
Theorem C112_gap_refuted : forall median idx n,
  reindex_fill_na median idx (mkFrame [] (repeat (mkCol true []) n)) = reindex_fill_na median idx (mkFrame idx (repeat (mkCol true (map (fun _ => Some 0%Q) idx)) n)).
Proof.
  intros median idx n. unfold reindex_fill_na. cbn [fr_columns]. f_equal. rewrite !map_rep. f_equal. unfold fill_column, fillna, reindexed. cbn [is_power col_values fr_index]. f_equal. rewrite !map_map. apply map_ext. intros t. cbn [at_time].
  assert (G : forall l, match at_time l (map (fun _ => Some 0%Q) l) t with Some y => Some y | None => Some 0%Q end = Some 0%Q); [|symmetry; apply G]. induction l as [|s l IH]; [reflexivity|]. cbn [at_time map]. destruct (Z.eq_dec s t); [reflexivity|exact IH].
Qed.
Print Assumptions C112_gap_refuted.
(** Readings at other times are lost. *)
Theorem C112_outside_refuted : forall median idx f c t x v, ~ In t idx -> reading f c t x -> ~ reading (reindex_fill_na median idx f) (fill_column median idx f c) t v.
Proof. intros median idx f c t x v N _ (k & K & _). apply N. eapply nth_error_In. exact K. Qed.
Print Assumptions C112_outside_refuted.
Example C112_outside_example : exists c, In c (fr_columns ex_frame) /\ reading ex_frame c 240%Z (7 # 1)%Q /\ ~ In 240%Z [0; 60; 120]%Z.
Proof. eexists. split; [left; reflexivity|]. split; [exists 2; split; reflexivity|cbn; intuition discriminate]. Qed.
