(** What C88 says about rounding, independently of the model's arithmetic. *)
From Coq Require Import Reals List Permutation.
From Verif Require Import Base RoundModel.
Import ListNotations.
Open Scope R_scope.

(** Rounding with relative error [u], which is 2^-53 for double precision to the nearest. *)
Definition rounds (u : R) (rnd : R -> R) : Prop := forall x, Rabs (rnd x - x) <= u * Rabs x.

(** The positions an order of addition uses, and the length of its longest chain of
    additions. *)
Fixpoint positions (o : order) : list nat :=
  match o with At i => [i] | Plus a b => positions a ++ positions b end.
Fixpoint depth (o : order) : nat :=
  match o with At _ => 0%nat | Plus a b => S (Nat.max (depth a) (depth b)) end.

(** [o] adds each of [n] terms once; nothing is asked when there is no term. *)
Definition each_once (n : nat) (o : order) : Prop := n = 0%nat \/ Permutation (positions o) (seq 0 n).

(** The readings that are there, and the pairs of neighbours among them. *)
Definition there (s : list (Z * option R)) : list (Z * R) :=
  flat_map (fun x => match snd x with Some v => [(fst x, v)] | None => [] end) s.
Definition neighbours (s : list (Z * option R)) : list ((Z * R) * (Z * R)) :=
  combine (there s) (tl (there s)).

Definition sum_R (l : list R) : R := fold_right Rplus 0 l.

(** Energy in kWh with exact arithmetic: a reading counts for the time up to the next
    reading, at most for the maximum sample period. *)
Definition exact_kwh (max_sample_period : R) (s : list (Z * option R)) : R :=
  sum_R (map (fun p => Rmin (IZR (fst (snd p) - fst (fst p)) / 1000000000) max_sample_period * snd (fst p)) (neighbours s)) / 3600000.

(** The same with the amounts of the readings, whatever their signs. *)
Definition amounts (s : list (Z * option R)) : list (Z * option R) :=
  map (fun x => (fst x, option_map Rabs (snd x))) s.

Definition exact_meter (max_sample_period : R) (chunks : list (list (Z * option R))) : R :=
  sum_R (map (exact_kwh max_sample_period) chunks).

(** Times do not go back; readings are not negative. *)
Fixpoint forward (s : list (Z * option R)) : Prop :=
  match s with
  | x :: ((y :: _) as r) => (fst x <= fst y)%Z /\ forward r
  | _ => True
  end.
Definition nonnegative (s : list (Z * option R)) : Prop :=
  forall t v, In (t, Some v) s -> 0 <= v.

(** The chunks of a meter, each with an order that adds each of its products once in a
    chain of at most [h] additions. *)
Definition chunk_ok (h : nat) (c : list (Z * option R) * order) : Prop :=
  forward (fst c) /\ each_once (length (neighbours (fst c))) (snd c) /\ (depth (snd c) <= h)%nat.

(** Rounding that keeps the order of numbers, and whole numbers up to [n]. *)
Definition monotone (rnd : R -> R) : Prop := forall x y, x <= y -> rnd x <= rnd y.
Definition keeps_whole (n : Z) (rnd : R -> R) : Prop := forall z, (Z.abs z <= n)%Z -> rnd (IZR z) = IZR z.

(** The readings of [s] that are there are the whole numbers [w], at whole seconds. *)
Definition whole (s : list (Z * option R)) (w : list (Z * Z)) : Prop :=
  there s = map (fun x => ((fst x * 1000000000)%Z, IZR (snd x))) w.

(** Readings at the same times, the second ones at least as large. *)
Definition at_most (s s' : list (Z * option R)) : Prop :=
  Forall2 (fun x y => fst x = fst y /\
    match snd x, snd y with Some v, Some v' => v <= v' | None, None => True | _, _ => False end) s s'.
