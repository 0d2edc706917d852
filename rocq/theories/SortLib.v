(** Insertion sort by an integer-valued optional key ([None] last, as
    pandas' [sort_index] places [NaT]).  Library vocabulary, not a model of a
    /repo function: it stands for pandas' [sort_index] and Python's [sorted]. *)
From Verif Require Import Base.
Open Scope Z_scope.

(** Order of keys, [None] (NaT) last. *)
Definition key_leb (a b : option Z) : bool :=
  match a, b with
  | _, None => true
  | None, Some _ => false
  | Some x, Some y => x <=? y
  end.

Fixpoint insert_by {A} (key : A -> option Z) (x : A) (l : list A) : list A :=
  match l with
  | [] => [x]
  | y :: r => if key_leb (key x) (key y) then x :: y :: r else y :: insert_by key x r
  end.

(** Stable insertion sort. *)
Fixpoint sort_by {A} (key : A -> option Z) (l : list A) : list A :=
  match l with
  | [] => []
  | x :: r => insert_by key x (sort_by key r)
  end.
