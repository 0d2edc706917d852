(** Model of the converter of Dataport CSV files
    (nilmtk/dataset_converters/dataport/csv_converter.py).

    Simplifications:
    - a column is one of those the converter treats specially, an appliance of
      COL_MAPPING ([App]; its type is given by a function), or any other ([Other]);
    - a CSV file is its header and the chunks that [pd.read_csv(chunksize=...)] makes of
      its rows; a row has a building ("dataid"), a time and readings in kW as integers;
    - the time stamps of one building in one chunk are distinct (line 207 joins on them);
    - the dictionaries 'geo_location', 'original_name' etc. of constants are left out;
    - time zones are left out: all times are UTC. *)
From Verif Require Import Base.
Import List. Open Scope Z_scope.

Inductive col := Grid | Solar | Solar2 | Use | App (k : nat) | Other (k : nat).
Definition col_eqb (a b : col) : bool :=
  match a, b with
  | Grid, Grid | Solar, Solar | Solar2, Solar2 | Use, Use => true
  | App i, App j | Other i, Other j => Nat.eqb i j
  | _, _ => false
  end.
Definition mem (c : col) (l : list col) : bool := existsb (col_eqb c) l.

Record row := mkRow { r_id : Z; r_time : Z; r_cell : col -> option Z }.
Record file := mkFile { f_header : list col; f_chunks : list (list row) }.

(** A frame: its columns, and rows with a time and a value for each column. *)
Record frame := mkFrame { columns : list col; rows : list (Z * (col -> option Z)) }.
(** [DataFrame.empty]. *)
Definition is_empty (f : frame) : bool := match columns f, rows f with [], _ | _, [] => true | _, _ => false end.

Definition addo (a b : option Z) : option Z := match a, b with Some x, Some y => Some (x + y) | _, _ => None end.
Definition thousand (a : option Z) : option Z := match a with Some x => Some (x * 1000) | None => None end.

(** csv_converter.py:189-191: columns without a reading in the chunk, and columns not in
    COL_MAPPING, are dropped. *)
Definition has_reading (rs : list row) (c : col) : bool := existsb (fun r => match r_cell r c with Some _ => true | None => false end) rs.
Definition mapped (c : col) : bool := match c with Other _ | Use => false | _ => true end.
Definition kept (header : list col) (rs : list row) : list col := filter mapped (filter (has_reading rs) header).

(** csv_converter.py:195-203: the generated power. *)
Definition generated (cs : list col) (r : row) : option Z :=
  let g := Some 0 in
  let g := if mem Solar cs then addo g (r_cell r Solar) else g in
  if mem Solar2 cs then addo g (r_cell r Solar2) else g.

(** csv_converter.py:166-212, [preprocess_chunk]; the second result says whether
    "photovoltaics" is noted in the metadata. *)
Definition preprocess (header : list col) (rs : list row) : res (frame * bool) :=
  let cs := kept header rs in
  if mem Solar cs || mem Solar2 cs then
    if mem Grid cs then
      let out := filter (fun c => negb (mem c [Grid; Solar; Solar2])) cs ++ [Use] in
      Ok (mkFrame out (map (fun r => (r_time r, fun c =>
            if mem c out then thousand (match c with Use => addo (r_cell r Grid) (generated cs r) | _ => r_cell r c end) else None)) rs), true)
    else Err KeyError
  else
    let out := map (fun c => match c with Grid => Use | _ => c end) cs in
    Ok (mkFrame out (map (fun r => (r_time r, fun c =>
          if mem c out then thousand (match c with Use => r_cell r Grid | _ => r_cell r c end) else None)) rs), false).

(** [pd.concat]: the columns of the first, then the new ones of the second. *)
Definition concat_frames (f g : frame) : frame :=
  mkFrame (columns f ++ filter (fun c => negb (mem c (columns f))) (columns g)) (rows f ++ rows g).

(** csv_converter.py:302, a stable sort by time. *)
Fixpoint insert_row (x : Z * (col -> option Z)) (l : list (Z * (col -> option Z))) : list (Z * (col -> option Z)) :=
  match l with [] => [x] | y :: r => if fst x <=? fst y then x :: l else y :: insert_row x r end.
Definition sort_rows (l : list (Z * (col -> option Z))) := fold_right insert_row [] l.

(** csv_converter.py:275-297: the loop over the chunks. *)
Definition of_building (b : Z) (rs : list row) : list row := filter (fun r => r_id r =? b) rs.
Fixpoint extract_chunks (header : list col) (b : Z) (chunks : list (list row)) (f : frame) (pv : bool) : res (frame * bool) :=
  match chunks with
  | [] => Ok (f, pv)
  | ch :: r =>
      match of_building b ch with
      | [] => extract_chunks header b r f pv
      | rs => do p <- preprocess header rs;
              extract_chunks header b r (if is_empty f then fst p else concat_frames f (fst p)) (pv || snd p)
      end
  end.
(** csv_converter.py:240-306, [extract_building_data] (without the cache). *)
Definition extract (fl : file) (b : Z) (pv : bool) : res (frame * bool) :=
  do p <- extract_chunks (f_header fl) b (f_chunks fl) (mkFrame [] []) pv;
  Ok (if is_empty (fst p) then fst p else mkFrame (columns (fst p)) (sort_rows (rows (fst p))), snd p).
(** csv_converter.py:271-279: the buildings of a file. *)
Definition buildings_of (fl : file) : list Z := map r_id (concat (f_chunks fl)).

(** Metadata of a building: 'instance', 'elec_meters' (whether it is the site meter),
    'appliances', 'energy_improvements'. *)
Record appliance := mkApp { p_name : col; p_meter : nat; p_type : nat; p_instance : nat }.
Record meta := mkMeta { m_instance : option nat; m_meters : list (nat * bool); m_apps : list appliance; m_pv : bool }.
Definition new_meta : meta := mkMeta None [] [] false.

(** A dictionary: assignment keeps the position of a key. *)
Fixpoint dset {A V} (eqb : A -> A -> bool) (d : list (A * V)) (k : A) (v : V) : list (A * V) :=
  match d with [] => [(k, v)] | (k', v') :: r => if eqb k' k then (k', v) :: r else (k', v') :: dset eqb r k v end.
Fixpoint dget {A V} (eqb : A -> A -> bool) (d : list (A * V)) (k : A) : option V :=
  match d with [] => None | (k', v') :: r => if eqb k' k then Some v' else dget eqb r k end.
Fixpoint dindex {A V} (eqb : A -> A -> bool) (d : list (A * V)) (k : A) : nat :=
  match d with [] => 0%nat | (k', _) :: r => if eqb k' k then 0%nat else S (dindex eqb r k) end.

(** The tables of the HDF file, by building and meter number. *)
Definition tables := list ((nat * nat) * list (Z * option Z)).
Definition key_eqb (a b : nat * nat) : bool := Nat.eqb (fst a) (fst b) && Nat.eqb (snd a) (snd b).
(** [HDFStore.put(append=True)]. *)
Definition put (t : tables) (k : nat * nat) (rs : list (Z * option Z)) : tables :=
  dset key_eqb t k (match dget key_eqb t k with Some old => old ++ rs | None => rs end).

Section Types.
(** COL_MAPPING[meter]["type"]. *)
Variable typ : nat -> nat.

(** csv_converter.py:356-362. *)
Definition count_type (apps : list appliance) (t : nat) : nat := length (filter (fun a => Nat.eqb (p_type a) t) apps).

(** csv_converter.py:337-366: the meters from number [m] on.  A column without a type in
    COL_MAPPING raises KeyError. *)
Fixpoint write_columns (t : tables) (b m : nat) (cs : list col) (rs : list (Z * (col -> option Z))) (md : meta) : res (tables * meta) :=
  match cs with
  | [] => Ok (t, md)
  | c :: r =>
      let t' := put t (b, m) (map (fun x => (fst x, snd x c)) rs) in
      do md' <- match c with
                | Use => Ok (mkMeta (m_instance md) (dset Nat.eqb (m_meters md) m true) (m_apps md) (m_pv md))
                | App k => Ok (mkMeta (m_instance md) (dset Nat.eqb (m_meters md) m false)
                                      (m_apps md ++ [mkApp c m (typ k) (S (count_type (m_apps md) (typ k)))]) (m_pv md))
                | _ => Err KeyError
                end;
      write_columns t' b (S m) r rs md'
  end.

Record conv := mkConv { c_tables : tables; c_metas : list (Z * meta); c_cache : list (nat * list Z) }.

(** csv_converter.py:308-366, [write_meter_data], after line 414. *)
Definition write_meter_data (s : conv) (b : Z) (f : frame) (md : meta) : res (conv * meta) :=
  let metas := dset Z.eqb (c_metas s) b md in
  let inst := match m_instance md with Some i => i | None => S (dindex Z.eqb metas b) end in
  let md := mkMeta (Some inst) (m_meters md) (m_apps md) (m_pv md) in
  do p <- write_columns (c_tables s) inst 1 (columns f) (rows f) md;
  Ok (mkConv (fst p) (dset Z.eqb metas b (snd p)) (c_cache s), snd p).

(** csv_converter.py:408-416: one file for one building. *)
Definition skip (cache : list (nat * list Z)) (name : nat) (b : Z) : bool :=
  match dget Nat.eqb cache name with Some bs => negb (existsb (Z.eqb b) bs) | None => false end.
Definition one_file (fs : nat -> file) (b : Z) (sm : conv * meta) (name : nat) : res (conv * meta) :=
  let '(s, md) := sm in
  if skip (c_cache s) name b then Ok (s, md)
  else
    do p <- extract (fs name) b (m_pv md);
    let cache := match dget Nat.eqb (c_cache s) name with
                 | Some _ => c_cache s
                 | None => dset Nat.eqb (c_cache s) name (buildings_of (fs name))
                 end in
    let s := mkConv (c_tables s) (c_metas s) cache in
    let md := mkMeta (m_instance md) (m_meters md) (m_apps md) (snd p) in
    if is_empty (fst p) then Ok (s, md) else write_meter_data s b (fst p) md.
(** csv_converter.py:406-416: one building. *)
Definition one_building (fs : nat -> file) (names : list nat) (s : conv) (b : Z) : res conv :=
  do p <- foldM (one_file fs b) names (s, new_meta); Ok (fst p).

(** csv_converter.py:398: the names are sorted. *)
Fixpoint insert_nat (x : nat) (l : list nat) : list nat :=
  match l with [] => [x] | y :: r => if Nat.leb x y then x :: l else y :: insert_nat x r end.
Definition sort_names (l : list nat) : list nat := fold_right insert_nat [] l.

(** csv_converter.py:369-424, [convert_dataport]: the tables and the metadata of the
    buildings [ids] (from metadata.csv, lines 111-138). *)
Definition convert (fs : nat -> file) (names : list nat) (ids : list Z) : res (tables * list (Z * meta)) :=
  do s <- foldM (one_building fs (sort_names names)) ids (mkConv [] [] []);
  Ok (c_tables s, c_metas s).
End Types.
