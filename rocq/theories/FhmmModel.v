(** Model of the factorial HMM disaggregator
    (nilmtk/disaggregate/fhmm_exact.py).

    Means and probabilities are rationals (float rounding not modelled).
    Dictionaries over appliances are lists in the dictionary's order; [hmmlearn]
    is an oracle (fit and predict are arguments). *)
From Verif Require Import Base.
From Coq Require Import QArith Qround.
Open Scope nat_scope.

(** [np.sort] of a column of numbers. *)
Fixpoint insertQ (x : Q) (l : list Q) : list Q :=
  match l with
  | [] => [x]
  | y :: l' => if Qle_bool x y then x :: y :: l' else y :: insertQ x l'
  end.
Fixpoint sortQ (l : list Q) : list Q := match l with [] => [] | x :: l' => insertQ x (sortQ l') end.

(** [np.where(val == means)[0][0]]: position of the first equal element. *)
Fixpoint where_first (v : Q) (l : list Q) : res nat :=
  match l with
  | [] => Err IndexError
  | x :: l' => if Qeq_bool v x then Ok 0 else do i <- where_first v l'; Ok (S i)
  end.

(** fhmm_exact.py:130-138, [return_sorting_mapping]: the dictionary 0.. -> index. *)
Definition return_sorting_mapping (means : list Q) : res (list nat) := mapM (fun v => where_first v means) (sortQ means).

(** [a[i]] of a numpy array. *)
Definition item {A} (l : list A) (i : nat) : res A := match nth_error l i with Some x => Ok x | None => Err IndexError end.
(** [mapping[i]] of the dictionary. *)
Definition lookup (mapping : list nat) (i : nat) : res nat := match nth_error mapping i with Some x => Ok x | None => Err KeyError end.

(** fhmm_exact.py:17-32, [sort_startprob] and [sort_covars]. *)
Definition sort_rows {A} (mapping : list nat) (l : list A) : res (list A) :=
  mapM (fun i => do j <- lookup mapping i; item l j) (seq 0 (length l)).
(** fhmm_exact.py:35-51, [sort_transition_matrix]. *)
Definition sort_transition_matrix (mapping : list nat) (a : list (list Q)) : res (list (list Q)) :=
  mapM (fun i => mapM (fun j => do i' <- lookup mapping i; do j' <- lookup mapping j; do r <- item a i'; item r j') (seq 0 (length a))) (seq 0 (length a)).

(** A learnt HMM with one observed dimension; covariances are opaque. *)
Record hmm (C : Type) := mkHmm { startprob : list Q; means : list Q; covars : list C; transmat : list (list Q) }.
Arguments mkHmm {C}. Arguments startprob {C}. Arguments means {C}. Arguments covars {C}. Arguments transmat {C}.

(** fhmm_exact.py:54-62, [sort_learnt_parameters]; its assertions compare array
    shapes that are equal by construction. *)
Definition sort_learnt_parameters {C} (h : hmm C) : res (hmm C) :=
  do mapping <- return_sorting_mapping (means h);
  do s <- sort_rows mapping (startprob h);
  do c <- sort_rows mapping (covars h);
  do t <- sort_transition_matrix mapping (transmat h);
  Ok (mkHmm s (sortQ (means h)) c t).

(** [np.kron] for vectors and for matrices. *)
Definition kron1 (a b : list Q) : list Q := flat_map (fun x => map (fun y => x * y)%Q b) a.
Definition kron2 (a b : list (list Q)) : list (list Q) := flat_map (fun x => map (fun y => kron1 x y) b) a.

(** fhmm_exact.py:65-77 and 95-108, [compute_A_fhmm] and [compute_pi_fhmm]. *)
Definition compute_A_fhmm (l : list (list (list Q))) : res (list (list Q)) :=
  match l with [] => Err IndexError | a :: l' => Ok (fold_left kron2 l' a) end.
Definition compute_pi_fhmm (l : list (list Q)) : res (list Q) :=
  match l with [] => Err IndexError | a :: l' => Ok (fold_left kron1 l' a) end.

(** [itertools.product]. *)
Fixpoint product {A} (l : list (list A)) : list (list A) :=
  match l with [] => [[]] | a :: l' => flat_map (fun x => map (cons x) (product l')) a end.
(** fhmm_exact.py:80-92, [compute_means_fhmm] (the covariance, 5 for every
    state, is left out). *)
Definition compute_means_fhmm (l : list (list Q)) : list Q := map (fold_right Qplus 0%Q) (product l).

(** fhmm_exact.py:111-127, [create_combined_hmm]: initial probabilities, transition
    matrix and means. *)
Definition create_combined_hmm {C} (model : list (hmm C)) : res (list Q * list (list Q) * list Q) :=
  do pi <- compute_pi_fhmm (map startprob model);
  do a <- compute_A_fhmm (map transmat model);
  Ok (pi, a, compute_means_fhmm (map means model)).

(** Python's [%] of a float and an int, and the conversion to int64 when the
    (non-negative) value is stored in an integer array. *)
Definition fmod (x : Q) (n : nat) : Q := (x - inject_Z (Z.of_nat n) * inject_Z (Qfloor (x / inject_Z (Z.of_nat n))))%Q.
Definition store_int (x : Q) : nat := Z.to_nat (Qfloor x).

(** fhmm_exact.py:141-167, [decode_hmm], for one time step: for each appliance
    the state and the power. *)
Fixpoint decode_loop (factor : nat) (centroids : list (list Z)) (s : nat) : res (list (nat * Z)) :=
  match centroids with
  | [] => Ok []
  | c :: rest =>
      if length c =? 0 then Err ZeroDivisionError
      else
        let factor := factor / length c in
        if factor =? 0 then Err ZeroDivisionError
        else
          let temp := (inject_Z (Z.of_nat s) / inject_Z (Z.of_nat factor))%Q in
          let j := store_int (fmod temp (length c)) in
          do p <- item c j;
          do r <- decode_loop factor rest s;
          Ok ((j, p) :: r)
  end.
Definition decode_one (centroids : list (list Z)) (s : nat) : res (list (nat * Z)) :=
  decode_loop (fold_left (fun n c => n * length c) centroids 1) centroids s.
Definition decode_hmm (centroids : list (list Z)) (states : list nat) : res (list (list (nat * Z))) := mapM (decode_one centroids) states.

(** [np.round] (to even) and [astype(int)]. *)
Definition round_even (x : Q) : Z :=
  let f := Qfloor x in
  let d := (x - inject_Z f)%Q in
  if negb (Qle_bool (1#2) d) then f
  else if negb (Qle_bool d (1#2)) then (f + 1)%Z
  else if Z.even f then f else (f + 1)%Z.
(** [list.sort] of integers. *)
Fixpoint insertZ (x : Z) (l : list Z) : list Z :=
  match l with
  | [] => [x]
  | y :: l' => if (x <=? y)%Z then x :: y :: l' else y :: insertZ x l'
  end.
Fixpoint sortZ (l : list Z) : list Z := match l with [] => [] | x :: l' => insertZ x (sortZ l') end.

(** The object: [app_names] grows with each [partial_fit]; [individual] holds the
    sorted models by appliance name (nat here). *)
Record fhmm (C : Type) := mkFhmm { app_names : list nat; individual : list (nat * hmm C); combined : option (list Q * list (list Q) * list Q) }.
Arguments mkFhmm {C}. Arguments app_names {C}. Arguments individual {C}. Arguments combined {C}.

(** An entry of an OrderedDict: an existing key keeps its position. *)
Fixpoint dict_set {B} (k : nat) (v : B) (d : list (nat * B)) : list (nat * B) :=
  match d with
  | [] => [(k, v)]
  | (k', v') :: d' => if k =? k' then (k, v) :: d' else (k', v') :: dict_set k v d'
  end.

(** fhmm_exact.py:184-259, [partial_fit]: [fit] is hmmlearn's training; the data
    of an appliance are its power samples, [None] for NaN, already concatenated
    (an empty list of frames, for which [pd.concat] raises, is left out). *)
Definition samples (l : list (option Q)) : list Q := flat_map (fun x => match x with Some x => [x] | None => [] end) l.
Definition partial_fit {C} (fit : nat -> list Q -> res (hmm C)) (self : fhmm C) (train : list (nat * list (option Q))) : res (fhmm C) :=
  let names := app_names self ++ map fst train in
  do learnt <- foldM (fun d x => match samples (snd x) with
                                 | [] => Ok d
                                 | data => do h <- fit (fst x) data; Ok (dict_set (fst x) h d)
                                 end) train [];
  do sorted <- mapM (fun kv => do h <- sort_learnt_parameters (snd kv); Ok (fst kv, h)) learnt;
  do c <- create_combined_hmm (map snd sorted);
  Ok (mkFhmm names sorted (Some c)).

(** fhmm_exact.py:261-309, [disaggregate_chunk], one chunk of mains with time
    stamps: [predict] is hmmlearn's most likely state sequence of the combined
    model.  The result is (index, columns, rows). *)
Definition centroids_of {C} (self : fhmm C) : list (list Z) := map (fun kv => sortZ (map round_even (means (snd kv)))) (individual self).
Definition disaggregate_one {C} (predict : list Q -> list nat) (self : fhmm C) (mains : list (Z * Q)) : res (list Z * list nat * list (list (option Z))) :=
  match mains with
  | [] => Ok ([], app_names self, [])
  | _ =>
      do decoded <- decode_hmm (centroids_of self) (predict (map snd mains));
      Ok (map Z.of_nat (seq 0 (length decoded)), map fst (individual self), map (map (fun p => Some (snd p))) decoded)
  end.
Definition disaggregate_chunk {C} (predict : list Q -> list nat) (self : fhmm C) (chunks : list (list (Z * Q))) := mapM (disaggregate_one predict self) chunks.
