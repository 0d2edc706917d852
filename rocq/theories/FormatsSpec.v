(** Vocabulary for comparing the two store formats. *)
From Verif Require Import Base TimeFrameModel TimeFrameSpec StoreModel StoreSpec.
Open Scope Z_scope.

(** The requests that the CSV store serves: no block of the file (see [cut])
    contributes exactly one row to the section. *)
Definition csv_servable {A} (rows : list (sample A)) (window : tf) (csize : nat) (section : tf) : Prop :=
  forall bs b k, cut csize rows bs -> In b bs -> visible b window section k -> length k <> 1%nat.
