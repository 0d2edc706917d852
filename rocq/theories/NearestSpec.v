(** Vocabulary for nearest-value search, CO and Mean. *)
From Verif Require Import Base NearestModel.
From Coq Require Import QArith Permutation Sorted.
Open Scope nat_scope.

(** [p] lists the positions of [l] in an order that sorts the values. *)
Definition sorts (p : list nat) (l : list Z) : Prop :=
  Permutation p (seq 0 (length l)) /\
  forall i j a b, i < j -> nth_error p i = Some a -> nth_error p j = Some b ->
    exists x y, nth_error l a = Some x /\ nth_error l b = Some y /\ (x <= y)%Z.

(** The element at index [i] is a closest one to [t]. *)
Definition closest (l : list Z) (t : Z) (i : nat) : Prop :=
  exists x, nth_error l i = Some x /\ forall y, In y l -> (Z.abs (t - x) <= Z.abs (t - y))%Z.

(** One state of each appliance. *)
Definition combination (states : list (list Z)) (c : list Z) : Prop := Forall2 (fun s x => In x s) states c.

(** Exact sum and number of the readings present. *)
Definition present_readings (l : list (option Q)) : list Q := flat_map (fun o => match o with Some v => [v] | None => [] end) l.
Definition qsum (l : list Q) : Q := fold_right Qplus 0%Q l.
