(** Model of Hart 1985 transition pairing and power assignment
    (nilmtk/disaggregate/hart_85.py; nilmtk/legacy/disaggregate/hart_85.py has
    the same [PairBuffer]).

    Powers and tolerances are rationals (float rounding is not modelled),
    times are integers.  The matched-pairs frame is a list of pairs. *)
From Verif Require Import Base.
From Coq Require Import QArith Qabs.
Open Scope nat_scope.

(** One transition as stored in the buffer: time, the powers (active, or
    active and reactive) and the "matched" mark appended by [add_transition]. *)
Record transition := mkTr { tr_time : Z; tr_powers : list Q; tr_matched : bool }.

(** The data of a transition as given to [add_transition]. *)
Definition event := (Z * list Q)%type.
Definition data (t : transition) : event := (tr_time t, tr_powers t).

(** hart_85.py:25-63: the buffer.  [pb_n] is the number of powers, that is
    [num_measurements - 1]. *)
Record pairbuffer := mkPB {
  pb_size : nat; pb_min_tol : Q; pb_percent : Q; pb_large : Q; pb_n : nat;
  pb_list : list transition; pb_pairs : list (event * event) }.

(** Second level of the first mains column ([columns[0][1]]). *)
Inductive ac := Active | Reactive | Apparent | OtherAC.

(** hart_85.py:25-63, [PairBuffer.__init__]: with neither 2 nor 3 measurements,
    or with one power that is neither active nor apparent, [pair_columns] is
    never set and reading it raises. *)
Definition new_buffer (column : ac) (size : nat) (min_tol percent large : Q) (n : nat) : res pairbuffer :=
  let ok := mkPB size min_tol percent large n [] [] in
  match n with
  | 2 => Ok ok
  | 1 => match column with Active | Apparent => Ok ok | _ => Err AttributeError end
  | _ => Err AttributeError
  end.

(** hart_85.py:10-15, [MyDeque.popmiddle]: [rotate(-pos)], [popleft],
    [rotate(pos)]. *)
Definition rotate_left {A} (k : nat) (l : list A) : list A := skipn k l ++ firstn k l.
Definition rotate_right {A} (k : nat) (l : list A) : list A := skipn (length l - k) l ++ firstn (length l - k) l.
Definition popmiddle {A} (pos : nat) (l : list A) : res (list A) :=
  match rotate_left pos l with
  | [] => Err IndexError
  | _ :: r => Ok (rotate_right pos r)
  end.

(** First position whose mark is set. *)
Fixpoint first_matched (i : nat) (l : list transition) : option nat :=
  match l with
  | [] => None
  | t :: r => if tr_matched t then Some i else first_matched (S i) r
  end.

(** hart_85.py:65-74, [clean_buffer].  The recursion removes one transition per
    call; [fuel] bounds it (every theorem shows it is not exhausted).  Python's
    recursion limit is not modelled. *)
Fixpoint clean_list (fuel : nat) (l : list transition) : res (list transition) :=
  match first_matched 0 l with
  | None => Ok l
  | Some idx =>
      match fuel with
      | 0 => Err OutOfFuel
      | S fuel => do l' <- popmiddle idx l; clean_list fuel l'
      end
  end.
Definition set_list (b : pairbuffer) (l : list transition) : pairbuffer :=
  mkPB (pb_size b) (pb_min_tol b) (pb_percent b) (pb_large b) (pb_n b) l (pb_pairs b).
Definition clean_buffer (b : pairbuffer) : res pairbuffer :=
  do l <- clean_list (length (pb_list b)) (pb_list b); Ok (set_list b l).

(** [deque.append] with [maxlen]: the oldest item is dropped. *)
Definition deque_append {A} (maxlen : nat) (l : list A) (x : A) : list A :=
  skipn (length l + 1 - maxlen) (l ++ [x]).

(** hart_85.py:76-87, [add_transition] for a tuple. *)
Definition add_transition (b : pairbuffer) (e : event) : res pairbuffer :=
  if negb (length (snd e) =? pb_n b) then Err AssertionError
  else Ok (set_list b (deque_append (pb_size b) (pb_list b) (mkTr (fst e) (snd e) false))).

(** hart_85.py:142-151: the tolerance for one component. *)
Definition Qmax2 (a b : Q) : Q := if Qle_bool a b then b else a.
Definition Qlt_b (a b : Q) : bool := negb (Qle_bool b a).
Definition tolerance (b : pairbuffer) (x y : Q) : Q :=
  let m := Qmax2 (Qabs x) (Qabs y) in
  if Qlt_b m (pb_large b) then pb_min_tol b else (pb_percent b * m)%Q.

(** hart_85.py:136-161: [condition]: every component of the sum is within its
    tolerance (both for three measurements, the only one for two). *)
Definition cancels (b : pairbuffer) (v c : list Q) : bool :=
  forallb (fun p => Qlt_b (Qabs (fst p + snd p)%Q) (tolerance b (fst p) (snd p))) (combine v c).

(** [val[1] > 0] *)
Definition first_positive (v : list Q) : res bool :=
  match v with [] => Err IndexError | x :: _ => Ok (Qlt_b 0 x) end.

Definition at_ {A} (l : list A) (i : nat) : res A :=
  match nth_error l i with Some x => Ok x | None => Err IndexError end.
Fixpoint set_nth {A} (i : nat) (x : A) (l : list A) : list A :=
  match l, i with
  | [], _ => []
  | _ :: r, 0 => x :: r
  | y :: r, S i => y :: set_nth i x r
  end.
Definition mark (t : transition) : transition := mkTr (tr_time t) (tr_powers t) true.

(** hart_85.py:128-173: one comparison. State: the buffer's list and the new
    pairs. *)
Definition compare (b : pairbuffer) (st : list transition * list (event * event)) (idx compindex : nat) : res (list transition * list (event * event)) :=
  let (l, new) := st in
  do val <- at_ l idx;
  do pos <- first_positive (tr_powers val);
  if pos && negb (tr_matched val) then
    do compval <- at_ l compindex;
    if negb (tr_matched compval) then
      if cancels b (tr_powers val) (tr_powers compval) then
        Ok (set_nth compindex (mark compval) (set_nth idx (mark val) l), new ++ [(data val, data compval)])
      else Ok st
    else Ok st
  else Ok st.

(** hart_85.py:122-178: the inner loop; [idx] runs over [range(tlength - 1)],
    leaving at the first [compindex] beyond the end. *)
Fixpoint inner (b : pairbuffer) (tlength dist : nat) (idxs : list nat) st : res (list transition * list (event * event)) :=
  match idxs with
  | [] => Ok st
  | idx :: r =>
      if idx + dist <? tlength then do st' <- compare b st idx (idx + dist); inner b tlength dist r st'
      else Ok st
  end.

(** hart_85.py:91-187, [pair_transitions]; also returns whether a pair was
    found. *)
Definition pair_transitions (b : pairbuffer) : res (bool * pairbuffer) :=
  let tlength := length (pb_list b) in
  if tlength <? 2 then Ok (false, b)
  else
    do st <- foldM (fun st dist => inner b tlength dist (seq 0 (tlength - 1)) st) (seq 1 (tlength - 1)) (pb_list b, []);
    let '(l, new) := st in
    Ok (match new with [] => false | _ => true end,
        mkPB (pb_size b) (pb_min_tol b) (pb_percent b) (pb_large b) (pb_n b) l (pb_pairs b ++ new)).

(** hart_85.py:370-385, [pair]: one step of the loop, and the loop. *)
Definition pair_step (b : pairbuffer) (e : event) : res pairbuffer :=
  do b <- (if length (pb_list b) =? pb_size b then clean_buffer b else Ok b);
  do b <- add_transition b e;
  do r <- pair_transitions b;
  Ok (snd r).
Definition run (b : pairbuffer) (events : list event) : res pairbuffer := foldM pair_step events b.
Definition pair (column : ac) (size : nat) (min_tol percent large : Q) (n : nat) (events : list event) : res (list (event * event)) :=
  do b <- new_buffer column size min_tol percent large n;
  do b <- run b events;
  Ok (pb_pairs b).

(** ** Power assignment

    hart_85.py:512-572, [assign_power_from_states].  [P] is the type of a power
    (an integer, or a pair of integers for two-dimensional data), [zero] is
    what assigning 0 gives, [c] the appliance's centroid truncated to integers
    (the array has [dtype=int]).  Values are 1 (switched on), 0 (switched off)
    and anything else (unknown).  [fuel] bounds the [while] loops; the theorems
    show that it is never exhausted. *)
Section Assign.
  Context {P : Type}.
  Variables (zero c : P).

  (** [while values[i] != stop and i < len(values) - 1: power[i] = x; i += 1] *)
  Fixpoint hold (fuel : nat) (values : list Z) (stop : Z) (x : P) (i : nat) (power : list P) : res (nat * list P) :=
    do v <- at_ values i;
    if negb (v =? stop)%Z && (i <? length values - 1) then
      match fuel with
      | 0 => Err OutOfFuel
      | S fuel => hold fuel values stop x (S i) (set_nth i x power)
      end
    else Ok (i, power).

  Fixpoint assign_loop (fuel : nat) (values : list Z) (prev : Z) (i : nat) (power : list P) : res (list P) :=
    if i <? length values - 1 then
      match fuel with
      | 0 => Err OutOfFuel
      | S fuel =>
          do v <- at_ values i;
          do (i, power) <-
            (if (v =? 1)%Z then hold (length values) values 0 c (S i) (set_nth (S i) c power)
             else if (v =? 0)%Z then hold (length values) values 1 zero (S i) (set_nth (S i) zero power)
             else if (prev =? -1)%Z || (prev =? 0)%Z then hold (length values) values 1 zero i (set_nth i zero power)
             else hold (length values) values 0 c i (set_nth i c power));
          assign_loop fuel values prev i power
      end
    else Ok power.

  Definition assign_power (values : list Z) (prev : Z) : res (list P) :=
    assign_loop (length values) values prev 0 (repeat zero (length values)).
End Assign.
