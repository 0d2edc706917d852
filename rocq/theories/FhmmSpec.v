(** Vocabulary for the factorial HMM. *)
From Verif Require Import Base.
From Coq Require Import QArith Qabs.
Open Scope nat_scope.

(** [xs] is what the indices [js] pick from the lists, one from each. *)
Inductive picks {A} : list (list A) -> list nat -> list A -> Prop :=
  | pick_nil : picks [] [] []
  | pick_cons l j x ls js xs : nth_error l j = Some x -> picks ls js xs -> picks (l :: ls) (j :: js) (x :: xs).

Definition sum (l : list Q) : Q := fold_right Qplus 0%Q l.
Definition prod (l : list Q) : Q := fold_right Qmult 1%Q l.
Definition size (ns : list nat) : nat := fold_right Nat.mul 1 ns.

(** A probability distribution. *)
Definition distribution (l : list Q) : Prop := Forall (fun x => (0 <= x)%Q) l /\ (sum l == 1)%Q.

(** An HMM with [n] states, all parts of the right shape. *)
Definition shaped (n : nat) (pi : list Q) (a : list (list Q)) (mu : list Q) : Prop :=
  length pi = n /\ length a = n /\ Forall (fun r => length r = n) a /\ length mu = n.

(** No two entries are equal numbers. *)
Definition distinct (l : list Q) : Prop := forall i j x y, nth_error l i = Some x -> nth_error l j = Some y -> (x == y)%Q -> i = j.

(** [l'] lists [l] in the order given by the indices [m]. *)
Definition reordered {A} (m : list nat) (l l' : list A) : Prop := map Some l' = map (nth_error l) m.

(** An appliance's data has at least one value that is not missing. *)
Definition has_samples (x : nat * list (option Q)) : bool := existsb (fun v => match v with Some _ => true | None => false end) (snd x).

(** [z] is [x] rounded to the nearest integer, halves to the even one. *)
Definition rounded (x : Q) (z : Z) : Prop :=
  (Qabs (x - inject_Z z) <= 1#2)%Q /\ ((Qabs (x - inject_Z z) == 1#2)%Q -> Z.even z = true).
