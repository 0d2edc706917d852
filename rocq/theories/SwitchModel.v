(** Model of the detection of switches (nilmtk/electric.py:479-494 and
    nilmtk/metergroup.py:749-775).

    A chunk of a power series is a list of (timestamp, optional power); NaN is
    [None].  The generator [power_series()] is given by the list of chunks it
    yields. *)
From Verif Require Import Base.
Open Scope nat_scope.

Definition chunk := list (Z * option Z).

(** electric.py:491-493: the timestamps of the chunk at which
    [power.diff().abs() > threshold]; [prev] is the reading of the row before
    ([diff] is NaN where either of the two is, and NaN > threshold is false). *)
Fixpoint switches_after (threshold : Z) (prev : option Z) (c : chunk) : list Z :=
  match c with
  | [] => []
  | (t, x) :: r =>
      (match prev, x with
       | Some p, Some x => if (threshold <? Z.abs (x - p))%Z then [t] else []
       | _, _ => []
       end) ++ switches_after threshold x r
  end.

(** The first row of a chunk has no row before it: [diff] is NaN there. *)
Definition chunk_switches (threshold : Z) (c : chunk) : list Z := switches_after threshold None c.

(** electric.py:489-494, [switch_times]; [flatten_2d_list] (utils.py:156-169)
    of a list of lists is their concatenation. *)
Definition switch_times (threshold : Z) (chunks : list chunk) : list Z := concat (map (chunk_switches threshold) chunks).

(** [count[timestamp] += 1] on a [Counter]: keys are kept in the order in
    which they first come. *)
Fixpoint increment (t : Z) (count : list (Z * nat)) : list (Z * nat) :=
  match count with
  | [] => [(t, 1)]
  | (u, n) :: r => if (u =? t)%Z then (u, S n) :: r else (u, n) :: increment t r
  end.
Definition count_all (times : list Z) (count : list (Z * nat)) : list (Z * nat) := fold_left (fun c t => increment t c) times count.

(** metergroup.py:767-775, [simultaneous_switches]; [submeters] are the chunks
    of each of the submeters in turn. *)
Definition simultaneous_switches (threshold : Z) (submeters : list (list chunk)) : list (Z * nat) :=
  filter (fun p => 2 <=? snd p) (fold_left (fun count chunks => count_all (switch_times threshold chunks) count) submeters []).
