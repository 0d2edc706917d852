(** Model of nilmtk/losses.py, nilmtk/metrics.py (without the energy per meter, for which see
    TopModel) and align_two_meters (nilmtk/electric.py:830-861).

    Values are rationals; the square root is taken over the reals.  [num] is a float: NaN, a number or an
    infinity. *)
From Coq Require Import QArith Qabs Reals Qreals.
From Verif Require Import Base TopModel ResampleModel.
Open Scope Q_scope.

Definition qlen {A} (l : list A) : Q := inject_Z (Z.of_nat (length l)).
Definition sq (x : Q) : Q := x * x.

(** sklearn.metrics.mean_absolute_error and mean_squared_error; sklearn refuses lists of different lengths and
    empty ones. *)
Definition sklearn_pairs (gt pred : list Q) : res (list (Q * Q)) :=
  if negb (Nat.eqb (length gt) (length pred)) then Err ValueError
  else match gt with [] => Err ValueError | _ => Ok (combine gt pred) end.
(** losses.py:4-5. *)
Definition mae (gt pred : list Q) : res Q :=
  do ps <- sklearn_pairs gt pred; Ok (qsum (map (fun p => Qabs (fst p - snd p)) ps) / qlen ps).
(** losses.py:7-8: the mean squared error and its root. *)
Definition mse (gt pred : list Q) : res Q :=
  do ps <- sklearn_pairs gt pred; Ok (qsum (map (fun p => sq (fst p - snd p)) ps) / qlen ps).
Definition rmse (gt pred : list Q) : res R := do m <- mse gt pred; Ok (sqrt (Q2R m)).

(** sklearn.metrics.f1_score for two classes: 2tp/(2tp+fp+fn), 0 if that is 0/0. *)
Definition count_pairs (f : bool * bool -> bool) (ps : list (bool * bool)) : Q := qlen (filter f ps).
Definition sklearn_f1 (ps : list (bool * bool)) : Q :=
  let tp := count_pairs (fun p => fst p && snd p) ps in
  let fp := count_pairs (fun p => negb (fst p) && snd p) ps in
  let fn := count_pairs (fun p => fst p && negb (snd p)) ps in
  let d := 2 * tp + fp + fn in
  if Qeq_bool d 0 then 0 else 2 * tp / d.
(** losses.py:10-17: np.where(x < 10, 0, 1). *)
Definition is_on (x : Q) : bool := Qle_bool 10 x.
Definition f1score (gt pred : list Q) : res Q :=
  do ps <- sklearn_pairs gt pred; Ok (sklearn_f1 (map (fun p => (is_on (fst p), is_on (snd p))) ps)).

(** Two numpy arrays in one expression: an array of length one is repeated. *)
Definition numpy_pairs (gt pred : list Q) : res (list (Q * Q)) :=
  if Nat.eqb (length gt) (length pred) then Ok (combine gt pred)
  else match gt, pred with
       | [g], _ => Ok (map (fun p => (g, p)) pred)
       | _, [p] => Ok (map (fun g => (g, p)) gt)
       | _, _ => Err ValueError
       end.
(** np.mean of floats; none of ours is minus infinity. *)
Definition num_mean (l : list num) : num :=
  if existsb (fun x => match x with NaN => true | _ => false end) l then NaN
  else if existsb (fun x => match x with Inf _ => true | _ => false end) l then Inf false
  else divide (Some (qsum (flat_map (fun x => match x with Fin q => [q] | _ => [] end) l))) (qlen l).
(** losses.py:19-23. *)
Definition relative_error (gt pred : list Q) : res num :=
  do ps <- numpy_pairs gt pred; Ok (num_mean (map (fun p => divide (Some (Qabs (fst p - snd p))) (1 + snd p)) ps)).

(** losses.py:25-27, sklearn.metrics.r2_score: NaN for fewer than two samples; 1 or 0 if
    the truth is constant. *)
Definition r2score (gt pred : list Q) : res num :=
  do ps <- sklearn_pairs gt pred;
  if Nat.ltb (length ps) 2 then Ok NaN else
  let m := qsum (map fst ps) / qlen ps in
  let numerator := qsum (map (fun p => sq (fst p - snd p)) ps) in
  let denominator := qsum (map (fun p => sq (fst p - m)) ps) in
  Ok (Fin (if Qeq_bool denominator 0 then (if Qeq_bool numerator 0 then 1 else 0) else 1 - numerator / denominator)).

(** np.sqrt of a float. *)
Inductive real_num := RNaN | RVal (r : R) | RInf.
Definition num_sqrt (x : num) : real_num :=
  match x with
  | NaN => RNaN
  | Inf neg => if neg then RNaN else RInf
  | Fin q => if Qle_bool 0 q then RVal (sqrt (Q2R q)) else RNaN
  end.
(** losses.py:29-35. *)
Definition nde_square (gt pred : list Q) : res num :=
  do ps <- numpy_pairs gt pred; Ok (divide (Some (qsum (map (fun p => sq (fst p - snd p)) ps))) (qsum (map sq gt))).
Definition nde (gt pred : list Q) : res real_num := do x <- nde_square gt pred; Ok (num_sqrt x).
(** losses.py:37-43. *)
Definition nep (gt pred : list Q) : res num :=
  do ps <- numpy_pairs gt pred; Ok (divide (Some (qsum (map (fun p => Qabs (fst p - snd p)) ps))) (qsum gt)).

(** electric.py:861: the rows of the table of two resampled series; a column is NaN where
    its series has no bin.  (The rows are not sorted here.) *)
Definition row := (option Q * option Q)%type.
Definition value_at (s : samples) (t : Z) : option Q := match find (fun x => (fst x =? t)%Z) s with Some x => snd x | None => None end.
Definition join (m s : samples) : list row :=
  map (fun x => (snd x, value_at s (fst x))) m ++
  map (fun x => (None, snd x)) (filter (fun x => negb (existsb (fun y => (fst y =? fst x)%Z) m)) s).

(** electric.py:830-861.  The master's chunks; [slave a b] is what
    next() gives for the slave's data in the section from a to b, [None] if its generator
    is empty (StopIteration inside a generator: RuntimeError). *)
Fixpoint align_two_meters (midnight : Z -> Z) (period : Z) (slave : Z -> Z -> option samples) (master : list samples) : list (list row) * option exn :=
  match master with
  | [] => ([], None)
  | c :: rest =>
      match c with
      | [] | [_] => ([], None)
      | (t0, _) :: _ =>
          match slave t0 (last (map fst c) t0) with
          | None => ([], Some RuntimeError)
          | Some [] => align_two_meters midnight period slave rest
          | Some s => let '(l, e) := align_two_meters midnight period slave rest in
                      (join (resample_mean midnight period c) (resample_mean midnight period s) :: l, e)
          end
      end
  end.

(** The rows with both values. *)
Definition both (l : list row) : list (Q * Q) := flat_map (fun r => match r with (Some a, Some b) => [(a, b)] | _ => [] end) l.

(** metrics.py:148-157 for one pair of meters: 0.0/0.0 is a ZeroDivisionError if there was no
    chunk at all, otherwise a numpy division. *)
Fixpoint mne_loop (cs : list (list row)) (diff power : Q) : Q * Q :=
  match cs with
  | [] => (diff, power)
  | c :: cs' => mne_loop cs' (diff + qsum (map (fun p => Qabs (fst p - snd p)) (both c))) (power + qsum (valid_of (map snd c)))
  end.
Definition mean_normalized_error (cs : list (list row)) : res num :=
  match cs with [] => Err ZeroDivisionError | _ => let '(d, p) := mne_loop cs 0 0 in Ok (divide (Some d) p) end.

(** metrics.py:185-195. *)
Fixpoint rms_loop (cs : list (list row)) (total : Q) (n : nat) : Q * nat :=
  match cs with
  | [] => (total, n)
  | c :: cs' => rms_loop cs' (total + qsum (map (fun p => sq (fst p - snd p)) (both c))) (n + length (both c))
  end.
Definition rms_square (cs : list (list row)) : res num :=
  match cs with [] => Err ZeroDivisionError | _ => let '(s, n) := rms_loop cs 0 0 in Ok (divide (Some s) (inject_Z (Z.of_nat n))) end.
Definition rms_error (cs : list (list row)) : res real_num := do x <- rms_square cs; Ok (num_sqrt x).

(** electric.py:52-53, [when_on]: NaN >= threshold is False. *)
Definition when_on (threshold : Q) (c : samples) : samples :=
  map (fun x => (fst x, Some (match snd x with Some v => if Qle_bool threshold v then 1 else 0 | None => 0 end))) c.
(** astype(int) of the mean of zeros and ones: 1 only if all are 1. *)
Definition states (c : list row) : list (bool * bool) := map (fun p => (Qle_bool 1 (fst p), Qle_bool 1 (snd p))) (both c).
(** metrics.py:219-246.  [nan] is np.NaN, which numpy 2 no longer has. *)
Definition f1_score (nan : res num) (cs : list (list row)) : res num :=
  let scores := map (fun c => (sklearn_f1 (states c), qlen (states c))) cs in
  let n := qsum (map snd scores) in
  if Qle_bool n 0 then nan else Ok (Fin (qsum (map (fun s => fst s * (snd s / n)) scores))).

(** metrics.py:97-114: [min] of Python returns its first argument unless the second is smaller, and no number is smaller
    than NaN or greater.  A label that the index has twice gives a Series, which [min] refuses. *)
Definition num_lt (x y : num) : bool :=
  match x, y with
  | Fin a, Fin b => negb (Qle_bool b a)
  | Inf true, (Fin _ | Inf false) => true
  | Fin _, Inf false => true
  | _, _ => false
  end.
Definition py_min (x y : num) : num := if num_lt y x then y else x.
Definition num_add (x y : num) : num :=
  match x, y with
  | Fin a, Fin b => Fin (a + b)
  | NaN, _ | _, NaN => NaN
  | Inf s, Inf s' => if Bool.eqb s s' then Inf s else NaN
  | Inf s, Fin _ | Fin _, Inf s => Inf s
  end.
Definition label (s : list (nat * num)) (i : nat) : res num :=
  match filter (fun x => Nat.eqb (fst x) i) s with
  | [] => Err KeyError
  | [x] => Ok (snd x)
  | _ => Err ValueError
  end.
Fixpoint sum_min (gt pred : list (nat * num)) (ids : list nat) (acc : num) : res num :=
  match ids with
  | [] => Ok acc
  | i :: r => do g <- label gt i; do p <- label pred i; sum_min gt pred r (num_add acc (py_min g p))
  end.
Definition fraction_energy_assigned_correctly (predictions ground_truth : list emeter) : res num :=
  sum_min (fraction_per_meter ground_truth) (fraction_per_meter predictions) (map e_id predictions) (Fin 0).
