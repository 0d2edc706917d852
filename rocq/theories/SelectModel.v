(** Model of the selection of buildings by Dataport's metadata.csv, and of the directory of
    metadata given to [convert_yaml_to_hdf5]
    (nilmtk/dataset_converters/dataport/csv_converter.py); the conversion of the readings
    is that of DataportModel.

    Simplifications:
    - metadata.csv is the names of its columns and its further lines; of a line only the
      fields used are kept, [None] if empty; "dataid" is a number, the others are texts;
    - [sort_values] (an unstable sort, empty fields last) is a function of the theorems;
    - the directory is the list of its files; what [convert_yaml_to_hdf5] makes of it is
      left out. *)
From Coq Require Import Ascii String DecimalString Decimal.
From Verif Require Import Base DataportModel.
Import List. Open Scope list_scope. Open Scope Z_scope.

Record line := mkLine { l_id : option Z; l_avail : option string; l_grid : option string;
                        l_city : option string; l_state : option string }.
Record sheet := mkSheet { s_header : list string; s_lines : list line }.

(** csv_converter.py:27-30. *)
Definition DATA_AVAILABILITIES : list string := ["97%"; "98%"; "99%"; "100%"]%string.
Definition METADATA_COLS : list string := ["dataid"; "building_type"; "city"; "state"; "house_construction_year"]%string.

Definition among (s : string) (l : list string) : bool := existsb (String.eqb s) l.
(** csv_converter.py:132-135: the condition on a line. *)
Definition chosen (l : line) : bool :=
  match l_avail l with Some a => among a DATA_AVAILABILITIES | None => false end &&
  match l_grid l with Some g => String.eqb g "yes" | None => false end.

Section Select.
(** [DataFrame.sort_values(by="dataid")]. *)
Variable srt : list line -> list line.

(** csv_converter.py:111-138, [load_dataport_metadata]: [skiprows=[1]] leaves out the line
    after the names of the columns, whatever it holds.  A missing column is an
    AttributeError in lines 133-134, a KeyError in lines 135 and 137. *)
Definition load (s : sheet) : res (list line) :=
  let lines := tl (s_lines s) in
  if negb (among "egauge_1s_data_availability" (s_header s)) then Err AttributeError
  else if negb (among "grid" (s_header s)) then Err AttributeError
  else
    let buildings := filter chosen lines in
    if negb (among "dataid" (s_header s)) then Err KeyError
    else
      let buildings := srt buildings in
      if forallb (fun c => among c (s_header s)) METADATA_COLS then Ok buildings else Err KeyError.

(** csv_converter.py:404: [int(i)] of an empty field (a NaN) is a ValueError. *)
Definition dataids (rows : list line) : res (list Z) :=
  mapM (fun l => match l_id l with Some b => Ok b | None => Err ValueError end) rows.

(** csv_converter.py:224-227: an empty field (a NaN) is not a string. *)
Definition join (l : list (option string)) : res string :=
  do ts <- mapM (fun o => match o with Some t => Ok t | None => Err TypeError end) l;
  Ok (String.concat ", " ts).
Definition locality (rows : list line) (b : Z) : res string :=
  let here := filter (fun l => match l_id l with Some i => i =? b | None => false end) rows in
  join (map l_city here ++ map l_state here).

(** csv_converter.py:405-416: one building; that the locality is computed first matters for
    the errors only. *)
Definition one_listed (typ : nat -> nat) (fs : nat -> file) (names : list nat) (rows : list line) (s : conv) (b : Z) : res conv :=
  do _ <- locality rows b; one_building typ fs names s b.

(** The files of the metadata directory: those of NILMTK, and those written for buildings
    (with 'original_name', the rest of the metadata, and 'locality'). *)
Inductive content := Static (k : nat) | Building (name : Z) (md : meta) (loc : string).
Definition directory := list (string * content).
(** csv_converter.py:141-163, [create_tmp_metadata_dir]. *)
Definition create_dir (static : directory) : directory :=
  filter (fun f => negb (String.prefix "building" (fst f))) static.
(** csv_converter.py:420. *)
Definition yaml_name (i : nat) : string := ("building" ++ NilEmpty.string_of_uint (Nat.to_uint i) ++ ".yaml")%string.
(** csv_converter.py:419-423; csv_converter.py:213-237, [create_nilmtk_metadata], gives the
    name and the locality. *)
Definition write_yaml (rows : list line) (d : directory) (x : Z * meta) : res directory :=
  match m_instance (snd x) with
  | None => Err KeyError
  | Some i => do loc <- locality rows (fst x);
              Ok (dset String.eqb d (yaml_name i) (Building (fst x) (snd x) loc))
  end.

(** csv_converter.py:369-424, [convert_dataport]: the tables of the HDF file, and the
    directory of metadata. *)
Definition convert_dataport (typ : nat -> nat) (fs : nat -> file) (names : list nat) (static : directory) (s : sheet)
  : res (tables * directory) :=
  let names := sort_names names in
  let d := create_dir static in
  do rows <- load s;
  do ids <- dataids rows;
  do c <- foldM (one_listed typ fs names rows) ids (mkConv [] [] []);
  do d <- foldM (write_yaml rows) (c_metas c) d;
  Ok (c_tables c, d).
End Select.
