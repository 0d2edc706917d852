(** Model of Electric.correlation (nilmtk/electric.py:311-374).

    A power series is a list of chunks, a chunk a list of (time stamp, value), NaN being
    [None].  Values are real numbers; float rounding is not modelled.  Chunks
    are taken to be non-empty: for an empty one load_series yields an empty
    DataFrame, with which the sums would be tables. *)
From Coq Require Import Reals.
From Verif Require Import Base.
Open Scope R_scope.

Definition chunk := list (Z * option R).

(** Series.sum(): NaNs are skipped. *)
Definition opt_sum (l : list (option R)) : R := fold_right (fun x s => match x with Some v => v + s | None => s end) 0 l.
(** Arithmetic with NaN. *)
Definition opt_minus (x : option R) (m : R) : option R := match x with Some v => Some (v - m) | None => None end.
Definition opt_mult (x y : option R) : option R := match x, y with Some a, Some b => Some (a * b) | _, _ => None end.

(** electric.py:330-336: the rows are counted with the NaNs. *)
Fixpoint sum_and_count (cs : list chunk) (n : nat) (cumulator : R) : nat * R :=
  match cs with
  | [] => (n, cumulator)
  | c :: cs' => sum_and_count cs' (n + length c)%nat (cumulator + opt_sum (map snd c))
  end.

(** electric.py:350-355. *)
Fixpoint square_sum (cs : list chunk) (mean acc : R) : R :=
  match cs with
  | [] => acc
  | c :: cs' => square_sum cs' mean (acc + opt_sum (map (fun p => opt_mult (opt_minus (snd p) mean) (opt_minus (snd p) mean)) c))
  end.
Definition stdev (cs : list chunk) (mean : R) (n : nat) : R := sqrt (square_sum cs mean 0 / (INR n - 1)).

(** The product of two Series: position by position if their indices are equal, otherwise
    joined on the time stamps (the rows with only one value are NaN). *)
Definition product (c d : chunk) : list (option R) :=
  if list_eq_dec Z.eq_dec (map fst c) (map fst d) then map (fun p => opt_mult (snd (fst p)) (snd (snd p))) (combine c d)
  else flat_map (fun p => map (fun q => opt_mult (snd p) (snd q)) (filter (fun q => Z.eqb (fst p) (fst q)) d)) c.
Definition centred (m : R) (c : chunk) : chunk := map (fun p => (fst p, opt_minus (snd p) m)) c.

(** electric.py:360-371: [zip] stops with the shorter list of chunks. *)
Fixpoint numerator (cs ds : list chunk) (x_bar y_bar acc : R) : R :=
  match cs, ds with
  | c :: cs', d :: ds' => numerator cs' ds' x_bar y_bar (acc + opt_sum (product (centred x_bar c) (centred y_bar d)))
  | _, _ => acc
  end.

Inductive corr_result := CNaN | CVal (r : R) | CInf (neg : bool).
(** A division of floats. *)
Definition fdiv (a b : R) : corr_result :=
  if Req_EM_T b 0 then (if Req_EM_T a 0 then CNaN else CInf (if Rlt_dec a 0 then true else false)) else CVal (a / b).

(** electric.py:311-374. *)
Definition correlation (xs ys : list chunk) : corr_result :=
  let '(x_n, x_sum) := sum_and_count xs 0 0 in
  if Nat.leb x_n 1 then CNaN else
  let '(y_n, y_sum) := sum_and_count ys 0 0 in
  if Nat.leb y_n 1 then CNaN else
  let x_bar := x_sum / INR x_n in
  let y_bar := y_sum / INR y_n in
  let x_s := stdev xs x_bar x_n in
  let y_s := stdev ys y_bar y_n in
  fdiv (numerator xs ys x_bar y_bar 0) ((INR x_n - 1) * x_s * y_s).
