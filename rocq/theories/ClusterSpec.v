(** What the power states of an appliance should be. *)
From Coq Require Import QArith.
From Verif Require Import Base ClusterModel.
Import List. Open Scope list_scope. Open Scope nat_scope.

(** A reading that counts. *)
Definition on_reading (data : list (option Q)) (x : Q) : Prop := In (Some x) data /\ (10 < x)%Q.
(** How many readings count. *)
Fixpoint count_on (data : list (option Q)) : nat :=
  match data with
  | [] => 0
  | Some x :: d => (if Qlt_le_dec 10 x then 1 else 0) + count_on d
  | None :: d => count_on d
  end.
(** numpy.random.randint(0, n, 2000). *)
Definition draws (random : nat -> list nat) : Prop := forall n, 0 < n -> length (random n) = max_samples /\ forall i, In i (random n) -> i < n.
(** KMeans, when it succeeds, gives one centre per cluster, each a mean of samples and so
    between two samples. *)
Definition means (kmeans : list Q -> nat -> res clustering) : Prop := forall X n labels cs, X <> [] -> kmeans X n = Ok (labels, cs) ->
  length cs = n /\ forall c, In c cs -> exists lo hi, In lo X /\ In hi X /\ (lo <= c <= hi)%Q.
(** A sorted list without repetitions. *)
Definition ascending (l : list Z) : Prop := forall i j a b, i < j -> nth_error l i = Some a -> nth_error l j = Some b -> (a < b)%Z.
(** MeanShift: every coordinate of a centre lies between those of two rows. *)
Definition centred (mean_shift : list (list Q) -> list (list Q)) : Prop := forall rows c k, rows <> [] -> (forall r, In r rows -> length r = k) -> In c (mean_shift rows) ->
  length c = k /\ forall j, j < k -> exists r1 r2, In r1 rows /\ In r2 rows /\ (nth j r1 0 <= nth j c 0 <= nth j r2 0)%Q.
(** The three kinds of power in their usual order. *)
Definition usual_order (columns : list ptype) : Prop :=
  In columns [[Active]; [Reactive]; [Apparent]; [Active; Reactive]; [Active; Apparent]; [Reactive; Apparent]; [Active; Reactive; Apparent]].
