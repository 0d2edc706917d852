(** Series.resample(period).mean() of pandas, as nilmtk calls it (nilmtk/electric.py:853-859;
    nilmtk/utils.py:466-521).  pandas itself is not part of /repo: this is its
    documented behaviour for a sorted index.  The bins are [period] seconds long; they are counted
    from the midnight before the first sample ([midnight], which depends on the time
    zone), and run without holes from the first to the last sample. *)
From Coq Require Import QArith.
From Verif Require Import Base TopModel.

Definition samples := list (Z * option Q).

Definition bin (origin period t : Z) : Z := (origin + (t - origin) / period * period)%Z.
Fixpoint grid (start period : Z) (n : nat) : list Z := match n with O => [] | S n' => start :: grid (start + period)%Z period n' end.
(** The mean of the valid values, NaN if there are none. *)
Definition mean_of (l : list Q) : option Q := match l with [] => None | _ => Some (qsum l / inject_Z (Z.of_nat (length l)))%Q end.
Definition in_bin (origin period b : Z) (c : samples) : samples := filter (fun x => (bin origin period (fst x) =? b)%Z) c.
Definition resample_mean (midnight : Z -> Z) (period : Z) (c : samples) : samples :=
  match c with
  | [] => []
  | (t0, _) :: _ =>
      let o := midnight t0 in
      let first := bin o period t0 in
      let final := bin o period (last (map fst c) t0) in
      map (fun b => (b, mean_of (valid_of (map snd (in_bin o period b c))))) (grid first period (S (Z.to_nat ((final - first) / period))))
  end.

(** utils.py:505-510: of equal time stamps the first is kept. *)
Fixpoint keep_first (seen : list Z) (c : samples) : samples :=
  match c with
  | [] => []
  | x :: r => if existsb (Z.eqb (fst x)) seen then keep_first seen r else x :: keep_first (fst x :: seen) r
  end.
(** DataFrame.ffill(limit=limit) for a limit of at least 1: a NaN is replaced with the last valid value,
    at most [limit] times in a row. [gap]: how many NaNs since. *)
Fixpoint ffill (limit : nat) (prev : option Q) (gap : nat) (c : samples) : samples :=
  match c with
  | [] => []
  | (t, Some v) :: r => (t, Some v) :: ffill limit (Some v) 0 r
  | (t, None) :: r => (t, if Nat.ltb gap limit then prev else None) :: ffill limit prev (S gap) r
  end.
(** utils.py:466-521, [safe_resample], for how='mean', fill_method='ffill' (the defaults that
    ElecMeter.load sets, elecmeter.py:420-437), one column. *)
Definition safe_resample (midnight : Z -> Z) (period : Z) (limit : nat) (c : samples) : samples :=
  ffill limit None 0 (resample_mean midnight period (keep_first [] c)).
(** elecmeter.py:434-437: ceil(max_sample_period / sample_period), in whole seconds. *)
Definition ffill_limit (max_sample_period period : Z) : nat := Z.to_nat (- (- max_sample_period / period)).

(** electric.py:103-120, [power_series_all_data]: the first row of a chunk is dropped if
    it is not after the end of the chunk before. *)
Fixpoint drop_overlap (prev_end : option Z) (cs : list samples) : list samples :=
  match cs with
  | [] => []
  | c :: r =>
      (match prev_end, c with
       | Some e, x :: c' => if (fst x <=? e)%Z then c' else c
       | _, _ => c
       end) :: drop_overlap (match c with [] => prev_end | x :: _ => Some (last (map fst c) (fst x)) end) r
  end.
Definition nonempty (c : samples) : bool := match c with [] => false | _ => true end.
Definition power_series_all_data (cs : list samples) : option samples :=
  match filter nonempty cs with
  | [] => None
  | chunks => Some (concat (drop_overlap None chunks))
  end.
