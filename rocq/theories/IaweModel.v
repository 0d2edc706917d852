(** Model of filling the gaps of iAWE data (nilmtk/dataset_converters/iawe/convert_iawe.py:10-24,
    [reindex_fill_na], and the check at line 88).

    A frame is its columns over the index, which has no time twice (it comes from resample(), line 86); a
    column is a power or another quantity, with its values (None is NaN).  [median] is Series.median() of the values
    that are not NaN.  The names of the columns are taken to be distinct. *)
From Coq Require Import QArith.
From Verif Require Import Base.
Import List. Open Scope list_scope. Open Scope nat_scope.

Record column := mkCol { is_power : bool; col_values : list (option Q) }.
Record frame := mkFrame { fr_index : list Z; fr_columns : list column }.

(** convert_iawe.py:12, [df.reindex(idx)]: NaN at times the frame does not have. *)
Fixpoint at_time (index : list Z) (values : list (option Q)) (t : Z) : option Q :=
  match index, values with
  | s :: index, v :: values => if Z.eq_dec s t then v else at_time index values t
  | _, _ => None
  end.
Definition reindexed (idx : list Z) (f : frame) (c : column) : list (option Q) := map (at_time (fr_index f) (col_values c)) idx.

Definition present (values : list (option Q)) : list Q := flat_map (fun v => match v with Some x => [x] | None => [] end) values.
(** [Series.fillna(x)]; NaN fills nothing. *)
Definition fillna (x : option Q) (values : list (option Q)) : list (option Q) := map (fun v => match v with Some y => Some y | None => x end) values.

(** convert_iawe.py:10-24: powers are filled with 0, the others with the median of the column before. *)
Definition fill_column (median : list Q -> option Q) (idx : list Z) (f : frame) (c : column) : column :=
  mkCol (is_power c) (fillna (if is_power c then Some 0%Q else median (present (col_values c))) (reindexed idx f c)).
Definition reindex_fill_na (median : list Q -> option Q) (idx : list Z) (f : frame) : frame :=
  mkFrame idx (map (fill_column median idx f) (fr_columns f)).

(** convert_iawe.py:87-89: the frame that is stored; NaN that are left raise AssertionError. *)
Definition missing (values : list (option Q)) : bool := existsb (fun v => match v with None => true | Some _ => false end) values.
Definition fill_and_check (median : list Q -> option Q) (idx : list Z) (f : frame) : res frame :=
  let g := reindex_fill_na median idx f in
  if existsb (fun c => missing (col_values c)) (fr_columns g) then Err AssertionError else Ok g.
