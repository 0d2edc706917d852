(** Model of joining the blocks of a GREEND house into tables of meters
    (nilmtk/dataset_converters/greend/convert_greend.py:148-170).

    A frame has its columns and rows of a time and the values of the columns in order (None is NaN).  [srt] is
    DataFrame.sort_index(), which leaves open how rows of the same time are ordered.  Left out: names of levels,
    printing, how tables are stored. *)
From Coq Require Import String.
From Verif Require Import Base.
Import List. Open Scope list_scope. Open Scope nat_scope.

Record frame (A : Type) := mkFrame { f_cols : list string; f_rows : list (Z * list (option A)) }.
Arguments mkFrame {A} _ _.
Arguments f_cols {A} _.
Arguments f_rows {A} _.

(** The value of a row in a column; NaN if the block does not have that column. *)
Fixpoint cell {A} (cols : list string) (values : list (option A)) (c : string) : option A :=
  match cols, values with
  | k :: cols, v :: values => if string_dec k c then v else cell cols values c
  | _, _ => None
  end.

(** Columns of pd.concat(..., sort=False): in the order in which they first appear. *)
Fixpoint add_columns (known new : list string) : list string :=
  match new with
  | [] => known
  | c :: new => add_columns (if in_dec string_dec c known then known else known ++ [c]) new
  end.
Definition all_columns {A} (fs : list (frame A)) : list string := fold_left (fun known f => add_columns known (f_cols f)) fs [].

(** convert_greend.py:148, [pd.concat(house_data_dfs, sort=False)]; an empty list raises ValueError. *)
Definition concat_frames {A} (fs : list (frame A)) : res (frame A) :=
  match fs with
  | [] => Err ValueError
  | _ => let cols := all_columns fs in
         Ok (mkFrame cols (flat_map (fun f => map (fun r => (fst r, map (cell (f_cols f) (snd r)) cols)) (f_rows f)) fs))
  end.

(** convert_greend.py:149-152: [index.duplicated(keep='first')]; rows of a time seen before are dropped. *)
Fixpoint first_of_each {B} (seen : list Z) (rows : list (Z * B)) : list (Z * B) :=
  match rows with
  | [] => []
  | r :: rest => if in_dec Z.eq_dec (fst r) seen then first_of_each seen rest else r :: first_of_each (fst r :: seen) rest
  end.

(** convert_greend.py:154-170: the columns are the meters, numbered from 1 on. *)
Definition house_tables {A} (srt : list (Z * list (option A)) -> list (Z * list (option A))) (fs : list (frame A)) : res (list (nat * list (Z * option A))) :=
  do f <- concat_frames fs;
  let rows := first_of_each [] (srt (f_rows f)) in
  Ok (combine (seq 1 (List.length (f_cols f))) (map (fun c => map (fun r => (fst r, cell (f_cols f) (snd r) c)) rows) (f_cols f))).
