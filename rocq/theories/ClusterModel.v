(** Model of finding the power states of an appliance
    (nilmtk/feature_detectors/cluster.py).  The functions [cluster], [_transform_data] and
    [_apply_clustering] of nilmtk/feature_detectors/steady_states.py:201-307 are copies of these without
    the argument exact_num_clusters. *)
From Coq Require Import QArith Qround Qabs.
From Verif Require Import Base.
Import List. Open Scope list_scope. Open Scope nat_scope.

(** cluster.py:45-47. *)
Definition max_samples : nat := Z.to_nat 2000.
Definition min_samples : nat := 20.
Definition data_threshold : Q := 10.

(** cluster.py:30-62, [_transform_data]: readings above 10 watts, missing ones (None)
    left out; all zeros if there are fewer than 20; [random] is the list of
    random positions drawn if there are more than 2000. *)
Definition above (x : option Q) : list Q :=
  match x with Some v => if Qle_bool v data_threshold then [] else [v] | None => [] end.
Definition transform (random : nat -> list nat) (data : list (option Q)) : list Q :=
  let d := flat_map above data in
  if length d <? min_samples then repeat 0%Q max_samples
  else if max_samples <? length d then map (fun i => nth i d 0%Q) (random (length d))
  else d.

(** cluster.py:65-74: the labels and the centres that scikit-learn's KMeans finds for [n] clusters
    (or its exception).  cluster.py:112: the silhouette score of labels (it raises
    for a single label). *)
Definition clustering := (list nat * list Q)%type.

(** cluster.py:106-128: the loop over the numbers of clusters.  [cl n] are the
    centres found for [n]; [best] is num_clus (None: -1) and [sh] the best score.
    The result of the inner [None] is KeyError: k_means_cluster_centers[-1]. *)
Definition centres_of (found : nat -> list Q) (best : option nat) : res (list Q) :=
  match best with Some n => Ok (found n) | None => Err KeyError end.
Fixpoint choose (kmeans : list Q -> nat -> res clustering) (silhouette : list Q -> list nat -> res Q) (X : list Q) (ns : list nat) (sh : Q) (best : option nat) (found : nat -> list Q) : res (list Q) :=
  match ns with
  | [] => centres_of found best
  | n :: ns' =>
      match kmeans X n with
      | Ok (labels, centres) =>
          let found' := fun m => if m =? n then centres else found m in
          match silhouette X labels with
          | Ok s => if Qle_bool s sh then choose kmeans silhouette X ns' sh best found'
                    else choose kmeans silhouette X ns' s (Some n) found'
          | Err _ => choose kmeans silhouette X ns' sh (Some n) found'
          end
      | Err _ => match best with Some m => Ok (found m) | None => Ok [0%Q] end
      end
  end.

(** cluster.py:77-130, [_apply_clustering].  range(1, max_num_clusters). *)
Definition apply_clustering (kmeans : list Q -> nat -> res clustering) (silhouette : list Q -> list nat -> res Q) (X : list Q) (max_num : nat) (exact_num : option nat) : res (list Q) :=
  match exact_num with
  | Some n => do c <- kmeans X n; Ok (snd c)
  | None => choose kmeans silhouette X (seq 1 (max_num - 1)) (- (1))%Q None (fun _ => [])
  end.

(** numpy.round: to the nearest integer, ties to even. *)
Definition round_half_even (q : Q) : Z :=
  let f := Qfloor q in
  match Qcompare (q - inject_Z f) (1 # 2) with
  | Lt => f
  | Gt => (f + 1)%Z
  | Eq => if Z.even f then f else (f + 1)%Z
  end.
(** numpy.unique: sorted, without repetitions. *)
Fixpoint insert (x : Z) (l : list Z) : list Z :=
  match l with
  | [] => [x]
  | y :: l' => if (x <? y)%Z then x :: l else if (x =? y)%Z then l else y :: insert x l'
  end.
Definition unique (l : list Z) : list Z := fold_right insert [] l.

(** cluster.py:4-27, [cluster].  The int32 range is not modelled. *)
Definition cluster (kmeans : list Q -> nat -> res clustering) (silhouette : list Q -> list nat -> res Q) (random : nat -> list nat) (data : list (option Q)) (max_num : nat) (exact_num : option nat) : res (list Z) :=
  do cs <- apply_clustering kmeans silhouette (transform random data) max_num exact_num;
  Ok (unique (map round_half_even (cs ++ [0%Q]))).

(** cluster.py:133-177, [hart85_means_shift_cluster]: the table given to MeanShift has the columns active,
    reactive, apparent (those that occur in [columns], in this order); a pair of
    transitions has, for each type of power, two step sizes.  reshape raises
    ValueError if the number of columns is another, and so does MeanShift for
    an empty table.  [mean_shift] gives the centres, which get the names [columns]
    in the given order. *)
Inductive ptype := Active | Reactive | Apparent | OtherType (n : nat).
Definition ptype_dec : forall x y : ptype, {x = y} + {x <> y}.
Proof. decide equality. apply Nat.eq_dec. Defined.
Definition transition_pair := (ptype -> Q * Q)%type.
Definition feature (p : transition_pair) (t : ptype) : Q := ((Qabs (fst (p t)) + Qabs (snd (p t))) / 2)%Q.
Definition feature_types (columns : list ptype) : list ptype :=
  filter (fun t => if in_dec ptype_dec t columns then true else false) [Active; Reactive; Apparent].
Definition hart_clusters (mean_shift : list (list Q) -> list (list Q)) (pairs : list transition_pair) (columns : list ptype) : res (list (list (ptype * Q))) :=
  let types := feature_types columns in
  if (length types =? length columns) && (0 <? length types) && (0 <? length pairs) then
    Ok (map (fun c => combine columns c) (mean_shift (map (fun p => map (feature p) types) pairs)))
  else Err ValueError.
