(** Vocabulary for filling the gaps of iAWE data (C112). *)
From Coq Require Import QArith.
From Verif Require Import Base IaweModel.
Import List. Open Scope list_scope. Open Scope nat_scope.

(** The frame has the reading [x] at time [t] in column [c]. *)
Definition reading (f : frame) (c : column) (t : Z) (x : Q) : Prop :=
  exists k, nth_error (fr_index f) k = Some t /\ nth_error (col_values c) k = Some (Some x).
(** A frame as resample() gives it. *)
Definition regular (f : frame) : Prop := NoDup (fr_index f) /\ Forall (fun c => length (col_values c) = length (fr_index f)) (fr_columns f).
(** There is a median of one value or more, and of none there is none. *)
Definition is_median (median : list Q -> option Q) : Prop := forall l, median l = None <-> l = [].
