(** Model of writing to data stores and of converting one store into another:
    nilmtk/datastore/datastore.py (convert_datastore),
    nilmtk/datastore/hdfdatastore.py (append, put, load_metadata,
    save_metadata, elements_below_key) and nilmtk/datastore/csvdatastore.py
    (append, put, load_metadata, save_metadata, elements_below_key,
    _key_to_abs_path).

    Simplifications:
    - an HDF5 file is a tree of named nodes, each with an optional [metadata]
      attribute and an optional table (list of rows, all with the same
      columns); children are listed in the order PyTables lists them;
    - the data files of a CSV store are lists of lines; the lines that
      [to_csv(header=True)] writes first are one [Header] (or [EmptyHeader]
      for a frame without columns); a directory exists iff a file is below it
      (directories are only made for files, and never removed);
    - metadata are nested dictionaries; YAML files read back as written;
    - opening and closing files, [flush] and table indexes are not modelled. *)
From Coq Require Import Ascii String.
From Verif Require Import Base TimeFrameModel StoreModel KeyModel.
Import List.
Open Scope list_scope.
Open Scope nat_scope.

Definition str_eqb (a b : str) : bool := if list_eq_dec Ascii.ascii_dec a b then true else false.

(** Dictionaries keyed by strings or numbers. *)
Inductive mkey := KStr (s : str) | KInt (n : Z).
Inductive val := Atom (s : str) | Dict (l : list (mkey * val)).

Definition mkey_eqb (a b : mkey) : bool :=
  match a, b with
  | KStr s, KStr t => str_eqb s t
  | KInt n, KInt m => Z.eqb n m
  | _, _ => false
  end.

(** [d[k]] *)
Fixpoint assoc {V} (k : mkey) (l : list (mkey * V)) : option V :=
  match l with
  | [] => None
  | (k', v) :: r => if mkey_eqb k k' then Some v else assoc k r
  end.
(** [d[k] = v] *)
Fixpoint set_assoc {V} (k : mkey) (v : V) (l : list (mkey * V)) : list (mkey * V) :=
  match l with
  | [] => [(k, v)]
  | (k', v') :: r => if mkey_eqb k k' then (k', v) :: r else (k', v') :: set_assoc k v r
  end.
(** [del d[k]] *)
Fixpoint del_assoc {V} (k : mkey) (l : list (mkey * V)) : list (mkey * V) :=
  match l with
  | [] => []
  | (k', v') :: r => if mkey_eqb k k' then r else (k', v') :: del_assoc k r
  end.

(** [metadata[k]] on any value: [TypeError] for what is not a dictionary. *)
Definition item (k : mkey) (v : val) : res val :=
  match v with
  | Atom _ => Err TypeError
  | Dict l => match assoc k l with None => Err KeyError | Some x => Ok x end
  end.
(** [metadata[k] = x] *)
Definition set_item (k : mkey) (x v : val) : res val :=
  match v with
  | Atom _ => Err TypeError
  | Dict l => Ok (Dict (set_assoc k x l))
  end.

(** ** HDF5 files *)
Section Stores.
Context {A : Type}.

Inductive node := Node (meta : option val) (table : option (list (sample A))) (children : list (str * node)).
Definition n_meta (n : node) : option val := match n with Node m _ _ => m end.
Definition n_table (n : node) : option (list (sample A)) := match n with Node _ t _ => t end.
Definition n_children (n : node) : list (str * node) := match n with Node _ _ c => c end.

Fixpoint child (name : str) (l : list (str * node)) : option node :=
  match l with
  | [] => None
  | (s, n) :: r => if str_eqb name s then Some n else child name r
  end.
Fixpoint set_child (name : str) (n : node) (l : list (str * node)) : list (str * node) :=
  match l with
  | [] => [(name, n)]
  | (s, n') :: r => if str_eqb name s then (s, n) :: r else (s, n') :: set_child name n r
  end.

(** [store.get_node(key)], with the key split at its slashes. *)
Fixpoint find_node (n : node) (p : list str) : option node :=
  match p with
  | [] => Some n
  | s :: r => match child s (n_children n) with
              | None => None
              | Some c => find_node c r
              end
  end.

Definition key_parts (k : str) : list str := match strip k with [] => [] | s => split_path s end.

Definition get_node (root : node) (k : str) : option node := find_node root (key_parts k).

(** Apply [f] to the node at the path, creating the groups on the way. *)
Fixpoint update_node (f : node -> node) (n : node) (p : list str) : node :=
  match p with
  | [] => f n
  | s :: r =>
      let c := match child s (n_children n) with None => Node None None [] | Some c => c end in
      Node (n_meta n) (n_table n) (set_child s (update_node f c r) (n_children n))
  end.

(** hdfdatastore.py:151-165, [append]: pandas writes nothing for an empty
    frame, otherwise adds the rows at the end of the table. *)
Definition hdf_append (k : str) (rows : list (sample A)) (root : node) : node :=
  match rows with
  | [] => root
  | _ => update_node (fun n => Node (n_meta n)
           (Some (match n_table n with None => rows | Some old => old ++ rows end)) (n_children n))
           root (key_parts k)
  end.

(** hdfdatastore.py:168-173, [put] of a non-empty frame: the node, with its
    attributes and everything below it, is replaced.  (pandas ignores an empty
    frame, and creating the index of a missing table then raises: KeyError if
    there is no node, TypeError if the node has no table.) *)
Definition hdf_put (k : str) (rows : list (sample A)) (root : node) : node * option exn :=
  match rows with
  | [] => (root, match get_node root k with
                 | None => Some KeyError
                 | Some n => match n_table n with None => Some TypeError | Some _ => None end
                 end)
  | _ => (update_node (fun _ => Node None (Some rows) []) root (key_parts k), None)
  end.

(** hdfdatastore.py:180-187, [load_metadata]: no such node or no such
    attribute is an [AttributeError]. *)
Definition hdf_load_metadata (root : node) (k : str) : res val :=
  match (if str_eqb k [slash] then Some root else get_node root k) with
  | None => Err AttributeError
  | Some n => match n_meta n with None => Err AttributeError | Some m => Ok m end
  end.

(** hdfdatastore.py:190-197, [save_metadata]. *)
Definition hdf_save_metadata (k : str) (m : val) (root : node) : node * option exn :=
  if str_eqb k [slash] then (Node (Some m) (n_table root) (n_children root), None)
  else match get_node root k with
       | None => (root, Some AttributeError)
       | Some _ => (update_node (fun n => Node (Some m) (n_table n) (n_children n)) root (key_parts k), None)
       end.

(** hdfdatastore.py:200-205, [elements_below_key]. *)
Definition hdf_elements_below (root : node) (k : str) : res (list str) :=
  match (if str_eqb k [slash] || str_eqb k [] then Some root else get_node root k) with
  | None => Err AttributeError
  | Some n => Ok (map fst (n_children n))
  end.

(** hdfdatastore.py:32-148, [load(key)] with the default arguments; the
    chunk size is an argument.  [get_storer] raises [KeyError] if there is no
    node and [TypeError] if the node is no table. *)
Definition hdf_load_key (window : tf) (csize : nat) (root : node) (k : str) : gen (chunk A) :=
  match get_node root k with
  | None => ([], Some KeyError)
  | Some n => match n_table n with
              | None => ([], Some TypeError)
              | Some rows => hdf_load rows window (default_sections None) 0 csize
              end
  end.

(** ** CSV stores *)
Inductive line := Header | EmptyHeader | Row (r : sample A).

Record csv := mkCsv {
  v_dataset : option val;             (* metadata/dataset.yaml *)
  v_devices : option val;             (* metadata/meter_devices.yaml *)
  v_buildings : list (mkey * val);    (* metadata/building<I>.yaml *)
  v_files : list (mkey * list line)   (* data files by relative path *)
}.
Definition new_csv : csv := mkCsv None None [] [].

(** csvdatastore.py:236-246, [_key_to_abs_path] (relative to the root). *)
Definition key_to_path (py_int : str -> option Z) (k : str) : res str :=
  if Nat.ltb 1 (length k) then
    let rel := match k with c :: r => if Ascii.eqb c slash then r else k | [] => [] end in
    do ko <- key_of_string py_int k;
    match k_meter ko with
    | Some _ => Ok (rel ++ lit ".csv")
    | None => Ok rel
    end
  else Ok [].

(** [value.to_csv(header=True)]: a frame without rows comes from
    [pd.DataFrame()] and has no columns. *)
Definition to_csv (rows : list (sample A)) : list line :=
  match rows with
  | [] => [EmptyHeader]
  | _ => Header :: map Row rows
  end.

Definition put_file (p : str) (ls : list line) (st : csv) : csv :=
  mkCsv (v_dataset st) (v_devices st) (v_buildings st) (set_assoc (KStr p) ls (v_files st)).
Definition get_file (p : str) (st : csv) : option (list line) := assoc (KStr p) (v_files st).

(** csvdatastore.py:108-116, [append]. *)
Definition csv_append (py_int : str -> option Z) (k : str) (rows : list (sample A)) (st : csv) : csv * option exn :=
  match key_to_path py_int k with
  | Err e => (st, Some e)
  | Ok p => (put_file p (match get_file p st with None => [] | Some old => old end ++ to_csv rows) st, None)
  end.

(** csvdatastore.py:119-127, [put]. *)
Definition csv_put (py_int : str -> option Z) (k : str) (rows : list (sample A)) (st : csv) : csv * option exn :=
  match key_to_path py_int k with
  | Err e => (st, Some e)
  | Ok p => (put_file p (to_csv rows) st, None)
  end.

(** csvdatastore.py:164-185, [save_metadata].  A building number is never 0,
    so [key_object.building] is truthy, and [not key_object.meter] means
    that there is no meter. *)
Definition csv_save_metadata (py_int : str -> option Z) (k : str) (m : val) (st : csv) : csv * option exn :=
  if str_eqb k [slash] then
    match m with
    | Atom _ => (st, Some TypeError)
    | Dict l =>
        match assoc (KStr (lit "meter_devices")) l with
        | None => (st, Some KeyError)
        | Some dev => (mkCsv (Some (Dict (del_assoc (KStr (lit "meter_devices")) l))) (Some dev)
                             (v_buildings st) (v_files st), None)
        end
    end
  else
    match key_of_string py_int k with
    | Err e => (st, Some e)
    | Ok ko =>
        match k_meter ko with
        | Some _ => (st, Some AssertionError)
        | None => (mkCsv (v_dataset st) (v_devices st)
                     (set_assoc (KInt (k_building ko)) m (v_buildings st)) (v_files st), None)
        end
    end.

(** csvdatastore.py:152-157: the [data_location] of every meter is set;
    ['{:d}'.format] of a string is a [ValueError]. *)
Definition set_location (b : Z) (meters : list (mkey * val)) (k : mkey) : res (list (mkey * val)) :=
  match k with
  | KStr _ => Err ValueError
  | KInt m =>
      match assoc k meters with
      | None => Err KeyError
      | Some v =>
          do v' <- set_item (KStr (lit "data_location"))
                     (Atom (lit "/building" ++ decimal b ++ lit "/elec/meter" ++ decimal m)) v;
          Ok (set_assoc k v' meters)
      end
  end.

(** csvdatastore.py:138-161, [load_metadata]; a missing YAML file loads as
    [None] ([_load_file] of nilm_metadata), which is no dictionary. *)
Definition or_none (v : option val) : val := match v with None => Atom (lit "None") | Some x => x end.

Definition csv_load_metadata (py_int : str -> option Z) (st : csv) (k : str) : res val :=
  if str_eqb k [slash] then
    set_item (KStr (lit "meter_devices")) (or_none (v_devices st)) (or_none (v_dataset st))
  else
    do ko <- key_of_string py_int k;
    match k_meter ko with
    | Some _ => Err RuntimeError                     (* NotImplementedError *)
    | None =>
        let m := or_none (assoc (KInt (k_building ko)) (v_buildings st)) in
        do meters <- item (KStr (lit "elec_meters")) m;
        match meters with
        | Atom _ => Err TypeError
        | Dict l =>
            do l' <- foldM (set_location (k_building ko)) (map fst l) l;
            set_item (KStr (lit "elec_meters")) (Dict l') m
        end
    end.

(** The first component of a path of at least two components. *)
Definition top_dir (p : str) : option str :=
  match split_path p with
  | d :: _ :: _ => Some d
  | _ => None
  end.
Fixpoint some_list {X} (l : list (option X)) : list X :=
  match l with [] => [] | None :: r => some_list r | Some x :: r => x :: some_list r end.

Definition paths (st : csv) : list str :=
  some_list (map (fun e => match fst e with KStr p => Some p | KInt _ => None end) (v_files st)).

(** csvdatastore.py:188-203, [elements_below_key].  [listing] is the order in
    which [listdir] lists the directories.  Below the root the loop body reads
    the variable [directory], which only the other branch sets
    ([UnboundLocalError]); a directory that exists holds a file. *)
Definition is_dir (st : csv) (d : str) : bool := existsb (startswith (d ++ [slash])) (paths st).

Definition csv_elements_below (listing : list str -> list str) (st : csv) (k : str) : res (list str) :=
  if str_eqb k [slash] then
    Ok (filter (startswith (lit "building")) (listing (some_list (map top_dir (paths st)))))
  else
    match k with
    | [] | [_] => Err UnboundLocalError                 (* the root: it holds the directory metadata *)
    | _ :: rel => if is_dir st rel then Err UnboundLocalError else Ok []
    end.

(** The readings in a file: [None] if it is not one header followed by rows. *)
Fixpoint data_lines (ls : list line) : option (list (sample A)) :=
  match ls with
  | [] => Some []
  | Row r :: rest => match data_lines rest with None => None | Some l => Some (r :: l) end
  | _ => None
  end.
Definition csv_table (ls : list line) : option (list (sample A)) :=
  match ls with
  | Header :: rest => data_lines rest
  | _ => None
  end.

(** csvdatastore.py:47-105, [load(key)] with the default arguments.
    [garbled] is whatever happens for a file that is not a table; a missing
    file is [FileNotFoundError] (here [GenericException]). *)
Definition csv_load_key (py_int : str -> option Z) (garbled : list line -> gen (chunk A))
  (window : tf) (csize : nat) (st : csv) (k : str) : gen (chunk A) :=
  match key_to_path py_int k with
  | Err e => ([], Some e)
  | Ok p => match get_file p st with
            | None => ([], Some GenericException)
            | Some ls => match csv_table ls with
                         | None => garbled ls
                         | Some rows => csv_load rows window (default_sections None) 0 csize
                         end
            end
  end.

(** ** datastore.py:212-240, [convert_datastore] *)

(** What the conversion reads from the input store and writes to the output
    store; [S] is the content of the output store. *)
Record source := mkSource {
  s_meta : str -> res val;
  s_below : str -> res (list str);
  s_load : str -> gen (chunk A)
}.
Record sink (S : Type) := mkSink {
  k_save : str -> val -> S -> S * option exn;
  k_append : str -> list (sample A) -> S -> S * option exn
}.
Arguments mkSink {S} _ _.
Arguments k_save {S} _ _ _ _.
Arguments k_append {S} _ _ _ _.

(** A loop that stops at the first exception. *)
Fixpoint each {S X} (f : X -> S -> S * option exn) (l : list X) (s : S) : S * option exn :=
  match l with
  | [] => (s, None)
  | x :: r => match f x s with
              | (s', Some e) => (s', Some e)
              | (s', None) => each f r s'
              end
  end.

(** [do r, then k] on a result that may be an exception. *)
Definition with_res {S X} (r : res X) (k : X -> S -> S * option exn) (s : S) : S * option exn :=
  match r with Err e => (s, Some e) | Ok x => k x s end.

Definition then_ {S} (a b : S -> S * option exn) (s : S) : S * option exn :=
  match a s with (s', Some e) => (s', Some e) | (s', None) => b s' end.

(** datastore.py:232-238: one meter. *)
Definition convert_meter {S} (src : source) (snk : sink S) (utility_key meter : str) (s : S) : S * option exn :=
  if str_eqb meter (lit "cache") then (s, None)
  else
    let key := utility_key ++ [slash] ++ meter in
    let g := s_load src key in
    match each (fun c => k_append snk key (c_rows c)) (fst g) s with
    | (s', Some e) => (s', Some e)
    | (s', None) => (s', snd g)
    end.

(** datastore.py:229-231: one utility. *)
Definition convert_utility {S} (src : source) (snk : sink S) (building_key utility : str) (s : S) : S * option exn :=
  let utility_key := building_key ++ [slash] ++ utility in
  with_res (s_below src utility_key) (each (convert_meter src snk utility_key)) s.

(** datastore.py:224-228: one building.  The building is passed to
    [elements_below_key] without the leading slash. *)
Definition convert_building {S} (src : source) (snk : sink S) (building : str) : S -> S * option exn :=
  let building_key := slash :: building in
  with_res (s_meta src building_key) (fun m =>
    then_ (k_save snk building_key m)
      (with_res (s_below src building) (each (convert_utility src snk building_key)))).

Definition convert {S} (src : source) (snk : sink S) : S -> S * option exn :=
  with_res (s_meta src [slash]) (fun m =>
    then_ (k_save snk [slash] m)
      (with_res (s_below src [slash]) (each (convert_building src snk)))).

(** The two kinds of stores as input and as output. *)
Definition hdf_source (window : tf) (csize : nat) (root : node) : source :=
  mkSource (hdf_load_metadata root) (hdf_elements_below root) (hdf_load_key window csize root).
Definition hdf_sink : sink node :=
  mkSink hdf_save_metadata (fun k rows root => (hdf_append k rows root, None)).
Definition csv_source (py_int : str -> option Z) (listing : list str -> list str)
  (garbled : list line -> gen (chunk A)) (window : tf) (csize : nat) (st : csv) : source :=
  mkSource (csv_load_metadata py_int st) (csv_elements_below listing st) (csv_load_key py_int garbled window csize st).
Definition csv_sink (py_int : str -> option Z) : sink csv :=
  mkSink (csv_save_metadata py_int) (csv_append py_int).
Definition new_hdf : node := Node None None [].

End Stores.
Arguments node : clear implicits.
Arguments line : clear implicits.
Arguments csv : clear implicits.
Arguments source : clear implicits.
Arguments sink : clear implicits.
Arguments mkSink {A S} _ _.
Arguments k_save {A S} _ _ _ _.
Arguments k_append {A S} _ _ _ _.
