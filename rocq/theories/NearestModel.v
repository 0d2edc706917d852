(** Model of [find_nearest] (nilmtk/utils.py), nilmtk/disaggregate/
    combinatorial_optimisation.py (prediction) and nilmtk/disaggregate/mean.py.

    Simplifications:
    - readings and state powers are integers (only differences, sums and
      comparisons are used) in [find_nearest] and CO, rationals in Mean; the
      conversion of predictions to float32 is not modelled;
    - [None] is NaN;
    - [np.argsort] is an argument: the theorems hold for every permutation that
      sorts the array, whatever it does with equal elements;
    - [np.searchsorted] on a sorted array is the number of leading elements
      smaller than the value, and the length of the array for NaN (which numpy
      sorts last);
    - the DataFrames passed to CO and Mean have one column, as in
      nilmtk/api.py:184-189. *)
From Verif Require Import Base.
From Coq Require Import QArith.
Open Scope nat_scope.

(** [array[i]]; an index outside the array raises [IndexError]. *)
Definition get {A} (l : list A) (i : nat) : res A :=
  match nth_error l i with Some x => Ok x | None => Err IndexError end.

(** [np.searchsorted(sorted, t)] (side 'left'). *)
Fixpoint searchsorted (sorted : list Z) (t : Z) : nat :=
  match sorted with
  | [] => 0
  | x :: r => if (x <? t)%Z then S (searchsorted r t) else 0
  end.

(** utils.py:121-132 for one element of [test_array]: index and residual.
    Comparisons with NaN are false, so [idx2] is taken. *)
Definition nearest_one (known : list Z) (index_sorted : list nat) (sorted : list Z) (test : option Z)
  : res (nat * option Z) :=
  let n := length sorted in
  let idx1 := match test with Some t => searchsorted sorted t | None => n end in
  let idx2 := Nat.min (idx1 - 1) (n - 1) in
  let idx3 := Nat.min idx1 (n - 1) in
  do a3 <- get sorted idx3;
  do a2 <- get sorted idx2;
  let take3 := match test with Some t => (a3 - t <=? t - a2)%Z | None => false end in
  do i <- get index_sorted (if take3 then idx3 else idx2);
  do k <- get known i;
  Ok (i, match test with Some t => Some (t - k)%Z | None => None end).

(** utils.py:99-132, [find_nearest]; [index_sorted] is [np.argsort(known_array)]. *)
Definition find_nearest (known : list Z) (index_sorted : list nat) (test : list (option Z))
  : res (list (nat * option Z)) :=
  do sorted <- mapM (get known) index_sorted;
  mapM (nearest_one known index_sorted sorted) test.

(** ** CO *)

(** sklearn's [cartesian]: all combinations, the last array varying fastest. *)
Fixpoint cartesian (states : list (list Z)) : list (list Z) :=
  match states with
  | [] => [[]]
  | s :: r => flat_map (fun x => map (cons x) (cartesian r)) s
  end.

(** combinatorial_optimisation.py:143-172, [disaggregate_chunk] on one
    DataFrame: for each mains reading the predicted power of each appliance
    (one row of [state_combinations]).  [argsort] is [np.argsort]. *)
Definition co_disaggregate (argsort : list Z -> list nat) (states : list (list Z)) (mains : list (option Z))
  : res (list (list Z)) :=
  let combinations := cartesian states in
  let sums := map sumZ combinations in
  do found <- find_nearest sums (argsort sums) mains;
  mapM (fun p => get combinations (fst p)) found.

(** ** Mean *)

(** [int(x)] truncates towards zero. *)
Definition py_int (x : Q) : Z := Z.quot (Qnum x) (Zpos (Qden x)).

(** [np.nansum(power_.values)]. *)
Fixpoint nansum (l : list (option Q)) : Q :=
  match l with
  | [] => 0%Q
  | Some v :: r => (v + nansum r)%Q
  | None :: r => nansum r
  end.

(** The entry of one appliance: sum and number of elements. *)
Definition mean_model := (Z * nat)%type.

(** mean.py:19-27, [partial_fit] for one appliance: [power_] is a DataFrame,
    so [power_[~np.isnan(power_)]] masks NaN values but keeps every row, and
    [len] counts all rows. *)
Definition mean_partial_fit (m : mean_model) (frames : list (list (option Q))) : mean_model :=
  let power := concat frames in
  ((fst m + py_int (nansum power))%Z, snd m + length power).

(** mean.py:20-22: training from scratch, one call per element. *)
Definition mean_fit (calls : list (list (list (option Q)))) : mean_model :=
  fold_left mean_partial_fit calls (0%Z, 0).

(** mean.py:31-39, [disaggregate_chunk] for one appliance and one frame of
    [rows] rows; [sum / n_elem] on two ints raises ZeroDivisionError. *)
Definition mean_predict (m : mean_model) (rows : nat) : res (list Q) :=
  match snd m with
  | 0 => Err ZeroDivisionError
  | S n => Ok (repeat (inject_Z (fst m) / inject_Z (Z.of_nat (S n)))%Q rows)
  end.
