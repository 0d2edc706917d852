(** Vocabulary for loading from a table that grows (C108). *)
From Verif Require Import Base TimeFrameModel TimeFrameSpec StoreModel.

(** From chunk to chunk rows are only appended to [rows], and none of the new ones is in the window and in
    one of the sections. *)
Definition appended {A} (rows : list (sample A)) (window : tf) (sections : list tf) (rows_at : nat -> list (sample A)) : Prop :=
  forall k, exists new, rows_at k = rows ++ new /\
    Forall (fun r => forall s, In s sections -> ~ (inTF window (fst r) /\ inTF s (fst r))) new.
(** The same rows and time frame; rows to look ahead at may have come in addition. *)
Definition same_chunk {A} (a b : chunk A) : Prop :=
  c_rows a = c_rows b /\ c_tf a = c_tf b /\
  match c_look a, c_look b with None, None => True | Some l, Some l' => exists new, l' = l ++ new | _, _ => False end.
