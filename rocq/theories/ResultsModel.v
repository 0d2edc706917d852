(** Model of nilmtk/results.py (class [Results]), of the energy and dropout
    results (stats/totalenergyresults.py, stats/dropoutrateresults.py) and of
    stats/dropoutrate.py:get_dropout_rate.

    Simplifications:
    - the DataFrame [_data] is a list of rows (start, end, value); [None]
      start/end is pandas' [NaT];
    - the isinstance checks (results.py:60-65, 101-103, 123) are discharged by
      typing;
    - [sort_index] is a stable sort; pandas' default sort is not stable, but
      two rows with one start can only meet after a failed [update];
    - chained assignment [self._data[c].loc[i] += x] updates the stored table
      (it does without pandas' copy-on-write mode);
    - time zone stripping in the cache export is the identity. *)
From Verif Require Import Base TimeFrameModel SortLib.
From Coq Require Import QArith.
Open Scope Z_scope.

(** One row of [_data]: index, column 'end', the other columns. *)
Record row (A : Type) := mkRow { r_start : option Z; r_end : option Z; r_val : A }.
Arguments mkRow {A} _ _ _.
Arguments r_start {A} _.
Arguments r_end {A} _.
Arguments r_val {A} _.
Definition table (A : Type) := list (row A).

(** [TimeFrame(index, row['end'])], results.py:69, 86, 89, 194. *)
Definition row_tf {A} (r : row A) : res tf := mk (r_start r) (r_end r).

(** results.py:67-70, overlap check of [append]. *)
Fixpoint append_check {A} (data : table A) (t : tf) : res unit :=
  match data with
  | [] => Ok tt
  | r :: rest =>
      do f <- row_tf r;
      do _ <- check_for_overlap f t;
      append_check rest t
  end.

(** [verify_integrity=True], results.py:77: duplicate index values raise
    [ValueError]. *)
Fixpoint has_key {A} (data : table A) (k : option Z) : bool :=
  match data with
  | [] => false
  | r :: rest => oeqb (r_start r) k || has_key rest k
  end.
Fixpoint has_dup {A} (data : table A) : bool :=
  match data with
  | [] => false
  | r :: rest => has_key rest (r_start r) || has_dup rest
  end.

(** results.py:52-78, [append]: [self._data] is only assigned at the end, so
    an exception leaves the object unchanged. *)
Definition results_append {A} (data : table A) (t : tf) (v : A) : res (table A) :=
  do _ <- append_check data t;
  let d := data ++ [mkRow (tf_start t) (tf_end t) v] in
  if has_dup d then Err ValueError else Ok (sort_by r_start d).

(** results.py:87-90, inner loop of [check_for_overlap]. *)
Fixpoint check_row {A} (tf1 : tf) (rest : table A) : res unit :=
  match rest with
  | [] => Ok tt
  | r :: rest' =>
      do tf2 <- row_tf r;
      do _ <- check_for_overlap tf1 tf2;
      check_row tf1 rest'
  end.

(** results.py:80-90, [check_for_overlap]. *)
Fixpoint results_check {A} (data : table A) : res unit :=
  match data with
  | [] => Ok tt
  | r :: rest =>
      do tf1 <- row_tf r;
      do _ <- check_row tf1 rest;
      results_check rest
  end.

(** results.py:92-110, [update]: the object's new table, and the exception if
    one is raised.  The table is assigned before the check. *)
Definition results_update {A} (data new : table A) : table A * option exn :=
  match new with
  | [] => (data, None)
  | _ =>
      let d := sort_by r_start (data ++ new) in
      match results_check d with
      | Ok _ => (d, None)
      | Err e => (d, Some e)
      end
  end.

(** results.py:189-195, [timeframes]. *)
Definition results_timeframes {A} (data : table A) : res (list tf) := mapM row_tf data.

(** [other._data.loc[i]]: the rows whose index is [i]. *)
Definition rows_at {A} (data : table A) (k : option Z) : list (row A) :=
  filter (fun r => oeqb (r_start r) k) data.

(** [a != b] on 'end' entries; [NaT != NaT] is true. *)
Definition end_differs (a b : option Z) : bool :=
  match a, b with Some x, Some y => negb (x =? y) | _, _ => true end.

(** results.py:112-129, [unify] of the base class.  [other._data['end'].loc[i]]
    is evaluated first: a missing index raises [KeyError] (not the intended
    [RuntimeError]); a duplicated one makes the condition an ambiguous Series
    ([ValueError]). *)
Fixpoint unify_check {A B} (data : table A) (other : table B) : res unit :=
  match data with
  | [] => Ok tt
  | r :: rest =>
      match rows_at other (r_start r) with
      | [] => Err KeyError
      | [o] => if end_differs (r_end o) (r_end r) then Err RuntimeError
               else unify_check rest other
      | _ => Err ValueError
      end
  end.

(** The value of the other table for row [r] once [unify_check] has passed. *)
Definition combine_rows {A} (f : A -> A -> A) (data other : table A) : table A :=
  map (fun r => match rows_at other (r_start r) with
                | o :: _ => mkRow (r_start r) (r_end r) (f (r_val r) (r_val o))
                | [] => r
                end) data.

(** results.py:139-170, [import_from_cache]: the cached rows that start and end
    like one of the sections, section by section.  [if not section] is never
    true (no [__bool__]); [.loc[None]] finds nothing and [NaT == None] is
    false, so unbounded sections match nothing.  An empty cached table leaves
    the results untouched. *)
Definition cached_rows {A} (cached : table A) (s : tf) : list (row A) :=
  match tf_start s with
  | None => []
  | Some _ =>
      filter (fun r => match r_end r, tf_end s with
                       | Some a, Some b => a =? b
                       | _, _ => false
                       end) (rows_at cached (tf_start s))
  end.

Definition results_import {A} (data cached : table A) (sections : list tf) : table A :=
  match cached with
  | [] => data
  | _ => sort_by r_start (flat_map (cached_rows cached) sections)
  end.

(** ** stats/totalenergyresults.py *)

(** A row's energies: the three AC types of measurement.py:AC_TYPES, [None]
    where the column is absent or NaN.  Unit: power unit times time unit. *)
Record energies := mkEn { en_active : option Z; en_reactive : option Z; en_apparent : option Z }.

(** NaN-propagating addition, as [+=] on two cells. *)
Definition oadd (a b : option Z) : option Z :=
  match a, b with Some x, Some y => Some (x + y) | _, _ => None end.

(** Sum of a column skipping NaN ([DataFrame.sum]). *)
Fixpoint osum (l : list (option Z)) : Z :=
  match l with
  | [] => 0
  | Some x :: r => x + osum r
  | None :: r => osum r
  end.

(** results.py:33-40, [combined] for energies: the sum of each column.
    Columns never used are absent in Python and 0 here. *)
Definition energy_combined (data : table energies) : Z * Z * Z :=
  (osum (map (fun r => en_active (r_val r)) data),
   osum (map (fun r => en_reactive (r_val r)) data),
   osum (map (fun r => en_apparent (r_val r)) data)).

(** Whether a column exists in the table: some row has a value in it. *)
Definition has_col (f : energies -> option Z) (data : table energies) : bool :=
  existsb (fun r => match f (r_val r) with Some _ => true | None => false end) data.

(** totalenergyresults.py:28-33, [unify].  A column of self that other lacks
    raises [KeyError] (if there is a row); columns only in other are ignored. *)
Definition en_add (sa sr sp : bool) (a b : energies) : energies :=
  mkEn (if sa then oadd (en_active a) (en_active b) else en_active a)
       (if sr then oadd (en_reactive a) (en_reactive b) else en_reactive a)
       (if sp then oadd (en_apparent a) (en_apparent b) else en_apparent a).

Definition missing_col (f : energies -> option Z) (data other : table energies) : bool :=
  has_col f data && negb (has_col f other).

Definition energy_unify (data other : table energies) : res (table energies) :=
  do _ <- unify_check data other;
  if missing_col en_active data other || missing_col en_reactive data other
     || missing_col en_apparent data other
  then Err KeyError
  else Ok (combine_rows (en_add (has_col en_active data) (has_col en_reactive data)
                                (has_col en_apparent data)) data other).

(** ** stats/dropoutrate.py and stats/dropoutrateresults.py *)

(** Python's [round] of the quotient n/d for d > 0: to nearest, ties to even. *)
Definition round_half_even (n d : Z) : Z :=
  let q := n / d in
  let r2 := 2 * (n mod d) in
  if r2 <? d then q
  else if d <? r2 then q + 1
  else if Z.even q then q else q + 1.

(** dropoutrate.py:25-52, [get_dropout_rate].  [index] is the list of
    timestamps and [period] the sample period in the same unit; a period that
    is not positive is outside the model except that 0 divides by zero.
    [Ok None] is NaN. *)
Definition get_dropout_rate (index : list Z) (period : Z) : res (option Q) :=
  if (Z.of_nat (length index) <? 5) then Ok None else
  match index, last_opt index with
  | first :: _, Some last =>
      if negb (last >? first) then Err AssertionError else
      if period =? 0 then Err ZeroDivisionError else
      let n_expected := round_half_even (last - first) period + 1 in
      if n_expected =? 0 then Err ZeroDivisionError else
      let rate := (1 - inject_Z (Z.of_nat (length index)) / inject_Z n_expected)%Q in
      let rate := if Qle_bool 0 rate then rate else 0%Q in
      if Qle_bool rate 1 && Qle_bool 0 rate then Ok (Some rate) else Err AssertionError
  | _, _ => Ok None
  end.

(** Columns 'dropout_rate' (NaN = None) and 'n_samples'. *)
Record dropout := mkDrop { d_rate : option Q; d_n : Z }.

Definition tot_samples (data : table dropout) : Z := sumZ (map (fun r => d_n (r_val r)) data).

(** dropoutrateresults.py:17-27, [combined]: NaN products are skipped by
    [.sum()]; with no samples every proportion is NaN and the sum is 0. *)
Definition dropout_term (tot : Z) (d : dropout) : Q :=
  match d_rate d with
  | None => 0%Q
  | Some x => if tot =? 0 then 0%Q else (x * (inject_Z (d_n d) / inject_Z tot))%Q
  end.
Definition dropout_combined (data : table dropout) : Q :=
  fold_right Qplus 0%Q (map (fun r => dropout_term (tot_samples data) (r_val r)) data).
(** The same for any table: one without rows has no column 'n_samples'. *)
Definition dropout_simple (data : table dropout) : res Q :=
  match data with [] => Err KeyError | _ => Ok (dropout_combined data) end.

(** dropoutrateresults.py:29-36, [unify]: the mean of the two rates. *)
Definition drop_mean (a b : dropout) : dropout :=
  mkDrop (match d_rate a, d_rate b with
          | Some x, Some y => Some ((x + y) / 2)%Q
          | _, _ => None
          end) (d_n a + d_n b).
Definition dropout_unify (data other : table dropout) : res (table dropout) :=
  do _ <- unify_check data other;
  Ok (combine_rows drop_mean data other).
