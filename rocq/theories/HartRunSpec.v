(** Vocabulary for Hart's algorithm as a whole. *)
From Coq Require Import String QArith Qabs.
From Verif Require Import Base SteadyModel HartRunModel.
Import List. Open Scope list_scope. Open Scope nat_scope.

(** [j] is the first position of the least element. *)
Definition first_least (l : list Q) (j : nat) : Prop :=
  exists x, nth_error l j = Some x /\ forall i y, nth_error l i = Some y -> (i < j -> (x < y)%Q) /\ (x <= y)%Q.

(** The cluster a step of size [d] belongs to: the one with the nearest centroid. *)
Definition belongs (centroids : list Q) (d : Q) (j : nat) : Prop :=
  first_least (map (fun c => Qabs (c - Qabs d)) centroids) j.

(** Cluster [j] is switched at time [t], on if the power rises. *)
Definition switched (transients : list (Z * vec)) (centroids : list Q) (j : nat) (t : Z) (up : bool) : Prop :=
  exists d, In (t, [d]) transients /\ belongs centroids d j /\ (up = true <-> (0 < d)%Q).
Definition any_switch (transients : list (Z * vec)) (centroids : list Q) (j : nat) (t : Z) : Prop :=
  exists up, switched transients centroids j t up.

(** Cluster [j] is on just before [t]: its last switch before [t] was upwards.
    If it had none, the code takes its state from the last reading of the
    chunk, [t_last]. *)
Definition on_at (transients : list (Z * vec)) (centroids : list Q) (j : nat) (t_last t : Z) : Prop :=
  (exists t', (t' < t)%Z /\ switched transients centroids j t' true /\
     forall u, (t' < u < t)%Z -> ~ any_switch transients centroids j u) \/
  ((forall u, (u < t)%Z -> ~ any_switch transients centroids j u) /\ switched transients centroids j t_last true).

(** The squared difference of a prediction from the truth, reading by reading, as
    far as both go. *)
Fixpoint error (col : list Z) (truth : list Q) : Q :=
  match col, truth with
  | x :: col, y :: truth => ((inject_Z x - y) * (inject_Z x - y) + error col truth)%Q
  | _, _ => 0%Q
  end.

(** Column [j] is the first of those with the least error. *)
Definition best_match (cols : list (list Z)) (truth : list Q) (j : nat) : Prop :=
  first_least (map (fun col => error col truth) cols) j.

(** The distinct names, each at its first place. *)
Fixpoint distinct (l : list string) : list string :=
  match l with
  | [] => []
  | x :: r => x :: filter (fun y => negb (String.eqb x y)) (distinct r)
  end.

(** The readings of one column as rows. *)
Definition as_rows (readings : list (Z * Q)) : list row := map (fun r => (fst r, [snd r])) readings.

(** A column follows the switches of cluster [j], whose centroid is [c]: its values
    are 0 and the truncated centroid; at a reading without switch (except the last
    one) it is the centroid exactly if the cluster is on; at a reading where the
    cluster is switched on it is still 0 if it was off; where it is switched off it is 0,
    unless it was switched on at the reading before. *)
Definition follows (transients : list (Z * vec)) (centroids : list Q) (index : list Z) (j : nat) (c : Q) (col : list Z) : Prop :=
  length col = length index /\ (forall x, In x col -> x = 0%Z \/ x = truncate c) /\
  forall k t t_last, nth_error index k = Some t -> last_opt index = Some t_last ->
    (S k < length index -> ~ any_switch transients centroids j t ->
       (on_at transients centroids j t_last t -> nth_error col k = Some (truncate c)) /\
       (~ on_at transients centroids j t_last t -> nth_error col k = Some 0%Z)) /\
    (S k < length index -> switched transients centroids j t true -> ~ on_at transients centroids j t_last t -> nth_error col k = Some 0%Z) /\
    (switched transients centroids j t false -> truncate c <> 0%Z -> nth_error col k = Some (truncate c) ->
       exists p t', k = S p /\ nth_error index p = Some t' /\ switched transients centroids j t' true).
Definition all_follow (transients : list (Z * vec)) (centroids : list Q) (index : list Z) (cols : list (list Z)) : Prop :=
  length cols = length centroids /\
  forall j c col, nth_error centroids j = Some c -> nth_error cols j = Some col -> follows transients centroids index j c col.

(** The size of a pair of transitions, as the clustering sees it: the mean of the two steps. *)
Definition sized (pr : HartModel.event * HartModel.event) (point : list Q) : Prop :=
  exists x y, snd (fst pr) = [x] /\ snd (snd pr) = [y] /\ point = [((Qabs x + Qabs y) / 2)%Q].
