(** What is said about windows in local time. *)
From Verif Require Import Base TimeFrameModel TimeFrameSpec LocalModel.
Open Scope Z_scope.

(** The changes are in order, and between two of them at least as much time passes as either sets
    clocks back.  (In practice changes are weeks or months apart, and set clocks by an hour.) *)
Fixpoint regular_from (o : Z) (l : list (Z * Z)) : Prop :=
  match l with
  | [] => True
  | (t, o1) :: r =>
      match r with
      | [] => True
      | (t2, o2) :: _ => t < t2 /\ o - o1 <= t2 - t /\ o1 - o2 <= t2 - t
      end /\ regular_from o1 r
  end.
Definition regular (z : zone) : Prop := regular_from (z_first z) (z_changes z).

(** Clocks show [t] at one instant. *)
Definition shown_once (z : zone) (t : Z) : Prop := exists u, forall v, wall z v = t <-> v = u.
(** Clocks show a time from [start] on and before [end_]. *)
Definition shows_between (z : zone) (start end_ : option Z) (u : Z) : Prop :=
  (forall a, start = Some a -> a <= wall z u) /\ (forall b, end_ = Some b -> wall z u < b).
(** … decided *)
Definition shows_betweenb (z : zone) (start end_ : option Z) (u : Z) : bool :=
  match start with None => true | Some a => a <=? wall z u end && match end_ with None => true | Some b => wall z u <? b end.
