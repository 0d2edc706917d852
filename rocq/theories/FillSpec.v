(** Specification of resampling. *)
From Coq Require Import QArith Sorted.
From Verif Require Import Base TopModel ResampleModel MetricsSpec.
Open Scope Z_scope.

Definition increasing (c : samples) : Prop := StronglySorted (fun x y => fst x < fst y) c.
Definition not_decreasing (c : samples) : Prop := StronglySorted (fun x y => fst x <= fst y) c.
(** [o]: the midnight before the first sample; [t0], [t1]: the times of the first and of the last sample. *)
Definition spans (midnight : Z -> Z) (c : samples) (o t0 t1 : Z) : Prop :=
  (exists x r, c = x :: r /\ fst x = t0 /\ midnight t0 = o) /\ exists y r, c = r ++ [y] /\ fst y = t1.
(** The starts of the bins that hold samples or lie between samples. *)
Definition bin_between (o p t0 t1 t : Z) : Prop := (exists k, t = o + k * p) /\ t0 - p < t /\ t <= t1.
(** The value of the bin at [t]: the mean of its samples or, if it has none, the mean of the nearest
    earlier bin that has some, at most [limit] bins back. *)
Definition filled (c : samples) (p : Z) (limit : nat) (t : Z) (v : Q) : Prop :=
  exists j : nat, (j <= limit)%nat /\ window_mean c (t - Z.of_nat j * p) p v /\
    forall k : nat, (k < j)%nat -> window_values c (t - Z.of_nat k * p) p = [].

(** Consecutive chunks: every time of a chunk is in relation to every time of the next. *)
Inductive follows (R : Z -> Z -> Prop) : list samples -> Prop :=
  | fo_nil : follows R []
  | fo_one c : follows R [c]
  | fo_cons c d cs : (forall x y, In x c -> In y d -> R (fst x) (fst y)) -> follows R (d :: cs) -> follows R (c :: d :: cs).
