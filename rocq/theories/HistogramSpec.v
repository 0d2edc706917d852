(** What a histogram is, independent of how it is computed. *)
From Verif Require Import Base HistogramModel.
From Coq Require Import QArith.
Open Scope nat_scope.

(** [n] of the samples of [c] are present and satisfy [P]. *)
Inductive number_of (P : Q -> Prop) : chunk -> nat -> Prop :=
  | number_nil : number_of P [] 0
  | number_yes x c n : P x -> number_of P c n -> number_of P (Some x :: c) (S n)
  | number_no x c n : ~ P x -> number_of P c n -> number_of P (Some x :: c) n
  | number_nan c n : number_of P c n -> number_of P (None :: c) n.

(** [h] is the histogram of [c] over the edges [es]: one count per pair of
    neighbouring edges; bins contain their lower edge, and only the last bin
    contains its upper edge. *)
Definition is_histogram (es : list Q) (c : chunk) (h : list nat) : Prop :=
  length h = length es - 1 /\
  forall i a b, nth_error es i = Some a -> nth_error es (S i) = Some b ->
    exists n, nth_error h i = Some n /\
      number_of (fun x => (a <= x)%Q /\ ((x < b)%Q \/ (S (S i) = length es /\ (x <= b)%Q))) c n.

(** Edges never decrease. *)
Definition ordered (es : list Q) : Prop :=
  forall i j a b, i <= j -> nth_error es i = Some a -> nth_error es j = Some b -> (a <= b)%Q.

(** The lowest and the highest value of a chunk. *)
Definition lowest (c : chunk) (lo : Q) : Prop := In (Some lo) c /\ forall x, In (Some x) c -> (lo <= x)%Q.
Definition highest (c : chunk) (hi : Q) : Prop := In (Some hi) c /\ forall x, In (Some x) c -> (x <= hi)%Q.
