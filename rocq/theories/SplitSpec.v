(** Specification of the split point. *)
From Verif Require Import Base SplitModel.
From Coq Require Import QArith.
Open Scope Q_scope.

(** Whole sample periods in a section that ends no earlier than it starts. *)
Definition whole_records (period : Q) (s : section) (n : Z) : Prop :=
  inject_Z n * period <= inject_Z (snd s - fst s) /\ inject_Z (snd s - fst s) < (inject_Z n + 1) * period.

(** [t] is in section number [i], and [x] records lie before it: all those of the earlier
    sections and the part of this one before [t]. *)
Definition splits_at (period : Q) (sections : list section) (ns : list Z) (i : nat) (t x : Q) : Prop :=
  exists s, nth_error sections i = Some s /\ inject_Z (fst s) <= t /\ t <= inject_Z (snd s) /\
    x == inject_Z (total (firstn i ns)) + (t - inject_Z (fst s)) / period.

(** Sections as good_sections gives them: not negative, one after the other. *)
Definition valid (sections : list section) : Prop := Forall (fun s => (fst s <= snd s)%Z) sections.
Fixpoint in_order (sections : list section) : Prop :=
  match sections with
  | [] => True
  | s :: r => (forall s', In s' r -> (snd s <= fst s')%Z) /\ in_order r
  end.
