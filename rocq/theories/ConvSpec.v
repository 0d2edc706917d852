(** Vocabulary for writing to and converting data stores. *)
From Coq Require Import Ascii String.
From Verif Require Import Base TimeFrameModel StoreModel StoreSpec KeyModel KeySpec ConvModel.
Import List.
Open Scope list_scope.
Open Scope nat_scope.

Definition building_name (b : Z) : str := lit "building" ++ decimal b.
Definition meter_name (m : Z) : str := lit "meter" ++ decimal m.

(** The key of meter [m] of building [b] below the utility [u]. *)
Definition meter_key (b : Z) (u : str) (m : Z) : str := absolute [building_name b; u; meter_name m].

(** The HDF5 file holds the table [rows] for this meter. *)
Definition reading {A} (root : node A) (b : Z) (u : str) (m : Z) (rows : list (sample A)) : Prop :=
  exists n, find_node root [building_name b; u; meter_name m] = Some n /\ n_table n = Some rows.

(** The part of the NILMTK layout that conversion relies on: buildings (with
    metadata) named [building<I>], below them utilities, below them tables
    named [meter<I>] and possibly a [cache]; names are unique. *)
Definition unique {A} (l : list (str * node A)) : Prop := NoDup (map fst l).

Definition meter_layout {A} (name : str) (n : node A) : Prop :=
  name = lit "cache" \/ exists m, (1 <= m)%Z /\ name = meter_name m /\ n_table n <> None.
Definition utility_layout {A} (name : str) (n : node A) : Prop :=
  component name /\ unique (n_children n) /\ forall s c, In (s, c) (n_children n) -> meter_layout s c.
Definition building_layout {A} (name : str) (n : node A) : Prop :=
  (exists b, (1 <= b)%Z /\ name = building_name b) /\ n_meta n <> None /\ unique (n_children n) /\
  forall s c, In (s, c) (n_children n) -> utility_layout s c.
Definition layout {A} (root : node A) : Prop :=
  (exists l dev, n_meta root = Some (Dict l) /\ assoc (KStr (lit "meter_devices")) l = Some dev) /\
  unique (n_children root) /\ forall s c, In (s, c) (n_children root) -> building_layout s c.

(** A table that [load] delivers in one chunk. *)
Definition fits {A} (csize : nat) (rows : list (sample A)) : Prop :=
  increasing rows /\ 2 <= length rows <= csize.

(** Two dictionaries with the same entries. *)
Definition same_dict (v w : val) : Prop := exists l l', v = Dict l /\ w = Dict l' /\ forall k, assoc k l = assoc k l'.

(** The metadata of building [b] name, for each meter, the place where the
    conversion puts its data. *)
Definition canonical_locations (b : Z) (m : val) : Prop :=
  exists l meters, m = Dict l /\ NoDup (map fst l) /\ assoc (KStr (lit "elec_meters")) l = Some (Dict meters) /\
    NoDup (map fst meters) /\
    forall k v, In (k, v) meters -> exists i d, k = KInt i /\ v = Dict d /\
      assoc (KStr (lit "data_location")) d = Some (Atom (meter_key b (lit "elec") i)).

(** The data files hold a reading somewhere. *)
Definition holds_readings {A} (st : csv A) : Prop :=
  exists p ls r, In (p, ls) (v_files st) /\ In (Row r) ls.
Definition no_tables {A} (root : node A) : Prop :=
  forall p n, find_node root p = Some n -> n_table n = None.

(** All data files of a CSV store are in directories named [building...]. *)
Definition in_buildings {A} (st : csv A) : Prop :=
  forall k ls, In (k, ls) (v_files st) -> exists rest, k = KStr (lit "building" ++ rest).

(** Tables that [load] delivers without raising. *)
Definition loadable {A} (c : nat) (rows : list (sample A)) : Prop :=
  increasing rows /\ (length rows <= 1 \/ (length rows - 1) mod c <> 0).

(** The table stored at a key of an HDF5 file. *)
Definition table_at {A} (root : node A) (k : str) : option (list (sample A)) :=
  match get_node root k with None => None | Some n => n_table n end.

(** The key of a meter; a key without its leading slash. *)
Definition is_meter_key (py_int : str -> option Z) (k : str) : Prop :=
  exists ko m, key_of_string py_int k = Ok ko /\ k_meter ko = Some m.
Definition unslash (k : str) : str := match k with c :: r => if Ascii.eqb c "/"%char then r else k | [] => [] end.
