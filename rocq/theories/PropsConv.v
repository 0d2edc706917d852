(** Property theorems about converting data stores (C60) and about writing to
    them (C61). *)
From Coq Require Import Ascii String DecimalString DecimalN.
From Verif Require Import Base TimeFrameModel StoreModel StoreSpec KeyModel KeySpec KeyProofs ConvModel ConvSpec ConvProofs ConvProofs3 ConvProofs4.
Import List.
Open Scope list_scope.
Open Scope nat_scope.

(** A data set with one building, two meters and a cache, used below. *)
Definition ex_int (s : str) : option Z :=
  match NilEmpty.uint_of_string (string_of_list_ascii s) with Some u => Some (Z.of_N (N.of_uint u)) | None => None end.
Lemma ex_int_reads : reads_numerals ex_int.
Proof. intros n Hn. unfold ex_int, decimal, lit. rewrite string_of_list_ascii_of_string, NilEmpty.usu, DecimalN.Unsigned.of_to. f_equal. lia. Qed.

Definition ex_table (n : nat) : list (sample Z) := map (fun i => (Z.of_nat i * 6, Z.of_nat i + 100)%Z) (seq 0 n).
Definition ex_building : val :=
  Dict [(KStr (lit "instance"), Atom (lit "1"));
        (KStr (lit "elec_meters"),
         Dict [(KInt 1, Dict [(KStr (lit "site_meter"), Atom (lit "True")); (KStr (lit "data_location"), Atom (lit "/building1/elec/meter1"))]);
               (KInt 2, Dict [(KStr (lit "data_location"), Atom (lit "/building1/elec/meter2"))])])].
Definition ex_root (n1 n2 : nat) : node Z :=
  Node (Some (Dict [(KStr (lit "name"), Atom (lit "REDD")); (KStr (lit "meter_devices"), Dict []); (KStr (lit "subject"), Atom (lit "x"))])) None
    [(lit "building1", Node (Some ex_building) None
       [(lit "elec", Node None None
          [(lit "cache", Node None None []);
           (lit "meter1", Node None (Some (ex_table n1)) []);
           (lit "meter2", Node None (Some (ex_table n2)) [])])])].

Lemma ex_layout n1 n2 : layout (ex_root n1 n2).
Proof.
  split; [eexists; eexists; split; reflexivity|]. split; [constructor; [intros []|constructor]|].
  intros s c [[= <- <-]|[]]. split; [exists 1%Z; split; [lia|reflexivity]|]. split; [discriminate|]. split; [constructor; [intros []|constructor]|].
  intros s c [[= <- <-]|[]]. split; [split; [discriminate|cbn; intuition discriminate]|]. split.
  - constructor; [cbn; intuition discriminate|]. constructor; [cbn; intuition discriminate|]. constructor; [intros []|constructor].
  - intros s c [[= <- <-]|[[= <- <-]|[[= <- <-]|[]]]]; [left; reflexivity|right|right].
    + exists 1%Z. split; [lia|]. split; [reflexivity|discriminate].
    + exists 2%Z. split; [lia|]. split; [reflexivity|discriminate].
Qed.

Lemma ex_readings n1 n2 b u m rows : reading (ex_root n1 n2) b u m rows -> rows = ex_table n1 \/ rows = ex_table n2.
Proof.
  intros (n & F & T). cbn [find_node ex_root n_children] in F.
  destruct (child (building_name b) _) as [bn|] eqn:E1; [|discriminate]. apply child_in in E1. destruct E1 as [[= _ <-]|[]]. cbn [n_children] in F.
  destruct (child u _) as [un|] eqn:E2; [|discriminate]. apply child_in in E2. destruct E2 as [[= _ <-]|[]]. cbn [n_children] in F.
  destruct (child (meter_name m) _) as [mn|] eqn:E3; [|discriminate]. apply child_in in E3. injection F as ->.
  destruct E3 as [[= _ <-]|[[= _ <-]|[[= _ <-]|[]]]]; cbn [n_table] in T; [left|right]; congruence.
Qed.

(** ** C60: converting a data set *)

(** From an HDF5 file into a new CSV store: every meter's readings are read
    back, and there is no other file.  Missing from the full statement: tables
    of fewer than 2 or more than [c] rows (see C60_meters). *)
Theorem C60_to_csv_partial : forall (A : Type) (py_int : str -> option Z), reads_numerals py_int ->
  forall (c : nat) (root : node A), layout root ->
  (forall b u m rows, (1 <= b)%Z -> (1 <= m)%Z -> reading root b u m rows -> fits c rows) -> (1 <= c) ->
  exists st, convert (hdf_source tf_cleared c root) (csv_sink py_int) new_csv = (st, None) /\
    (forall b u m rows, (1 <= b)%Z -> (1 <= m)%Z -> reading root b u m rows -> forall garbled, exists cs,
       csv_load_key py_int garbled tf_cleared c st (meter_key b u m) = (cs, None) /\ concat (map c_rows cs) = rows) /\
    (forall p ls, get_file p st = Some ls -> exists b u m rows, (1 <= b)%Z /\ (1 <= m)%Z /\ reading root b u m rows /\
       key_to_path py_int (meter_key b u m) = Ok p /\ csv_table ls = Some rows).
Proof. exact @to_csv_exact. Qed.
Print Assumptions C60_to_csv_partial.

Example C60_to_csv_example : reads_numerals ex_int /\ layout (ex_root 3 4) /\
  (forall b u m rows, (1 <= b)%Z -> (1 <= m)%Z -> reading (ex_root 3 4) b u m rows -> fits 4 rows) /\
  reading (ex_root 3 4) 1 (lit "elec") 2 (ex_table 4).
Proof.
  split; [exact ex_int_reads|]. split; [apply ex_layout|]. split.
  - intros b u m rows _ _ H. apply ex_readings in H. destruct H as [->| ->]; (split; [cbn; lia|cbn; lia]).
  - eexists. split; reflexivity.
Qed.

(** Exactly the tables of 2 to [c] rows can be read back; the file of any other
    table that loads without an exception is not a table. *)
Theorem C60_meters : forall (A : Type) (py_int : str -> option Z), reads_numerals py_int ->
  forall (c : nat) (root : node A), (1 <= c) -> layout root ->
  (forall b u m rows, (1 <= b)%Z -> (1 <= m)%Z -> reading root b u m rows -> loadable c rows) ->
  exists st, convert (hdf_source tf_cleared c root) (csv_sink py_int) new_csv = (st, None) /\
    forall b u m rows, (1 <= b)%Z -> (1 <= m)%Z -> reading root b u m rows ->
      exists p ls, key_to_path py_int (meter_key b u m) = Ok p /\ get_file p st = Some ls /\
        (2 <= length rows <= c -> csv_table ls = Some rows) /\
        (length rows < 2 \/ c < length rows -> csv_table ls = None).
Proof. exact @to_csv_meters. Qed.
Print Assumptions C60_meters.

Example C60_meters_example : forall b u m rows, (1 <= b)%Z -> (1 <= m)%Z -> reading (ex_root 1 5) b u m rows -> loadable 3 rows.
Proof.
  intros b u m rows _ _ H. apply ex_readings in H. destruct H as [->| ->]; (split; [cbn; lia|]); [left; cbn; lia|right; cbn; lia].
Qed.

(** The metadata survive: those of the data set up to the order of entries,
    those of a building exactly, provided that they locate the meters where the
    conversion puts them. *)
Theorem C60_metadata : forall (A : Type) (py_int : str -> option Z), reads_numerals py_int ->
  forall (c : nat) (root : node A), (1 <= c) -> layout root ->
  (forall b u m rows, (1 <= b)%Z -> (1 <= m)%Z -> reading root b u m rows -> loadable c rows) ->
  exists st, convert (hdf_source tf_cleared c root) (csv_sink py_int) new_csv = (st, None) /\
    (exists m m', hdf_load_metadata root [slash] = Ok m /\ csv_load_metadata py_int st [slash] = Ok m' /\ same_dict m m') /\
    (forall b m, (1 <= b)%Z -> hdf_load_metadata root (absolute [building_name b]) = Ok m -> canonical_locations b m ->
       csv_load_metadata py_int st (absolute [building_name b]) = Ok m).
Proof. exact @to_csv_metadata. Qed.
Print Assumptions C60_metadata.

Example C60_metadata_example : hdf_load_metadata (ex_root 3 4) (absolute [building_name 1]) = Ok ex_building /\ canonical_locations 1 ex_building.
Proof.
  split; [reflexivity|]. eexists. eexists. split; [reflexivity|].
  split; [constructor; [cbn; intuition discriminate|]; constructor; [intros []|constructor]|]. split; [reflexivity|].
  split; [constructor; [cbn; intuition discriminate|]; constructor; [intros []|constructor]|].
  intros k v [[= <- <-]|[[= <- <-]|[]]]; eexists; eexists; (split; [reflexivity|]); (split; [reflexivity|]); reflexivity.
Qed.

(** A meter with a single reading loses it. *)
Theorem C60_single_reading_refuted : exists (root : node Z) st,
  layout root /\ reading root 1 (lit "elec") 1 [(0, 100)%Z] /\
  convert (hdf_source tf_cleared 10 root) (csv_sink ex_int) new_csv = (st, None) /\
  get_file (lit "building1/elec/meter1.csv") st = Some [EmptyHeader].
Proof.
  exists (ex_root 1 4). eexists. split; [apply ex_layout|]. split; [eexists; split; reflexivity|]. split; [vm_compute; reflexivity|]. vm_compute. reflexivity.
Qed.
Print Assumptions C60_single_reading_refuted.

(** A table loaded in two chunks has a header in the middle of its file and
    one reading twice; one of [c + 1] rows makes the conversion raise. *)
Theorem C60_large_refuted : exists (root : node Z) st ls,
  layout root /\ reading root 1 (lit "elec") 2 (ex_table 4) /\
  convert (hdf_source tf_cleared 2 root) (csv_sink ex_int) new_csv = (st, None) /\
  get_file (lit "building1/elec/meter2.csv") st = Some ls /\
  ls = [Header; Row (0, 100)%Z; Row (6, 101)%Z; Row (12, 102)%Z; Header; Row (12, 102)%Z; Row (18, 103)%Z] /\
  snd (convert (hdf_source tf_cleared 3 root) (csv_sink ex_int) new_csv) = Some ValueError.
Proof.
  exists (ex_root 2 4). eexists. eexists. split; [apply ex_layout|]. split; [eexists; split; reflexivity|]. split; [vm_compute; reflexivity|].
  split; [vm_compute; reflexivity|]. split; [reflexivity|]. vm_compute. reflexivity.
Qed.
Print Assumptions C60_large_refuted.

(** Into a new HDF5 file: [AttributeError] at the first building, and no
    reading is converted. *)
Theorem C60_to_hdf_refuted : forall (A : Type) window c (root : node A), layout root -> n_children root <> [] ->
  convert (hdf_source window c root) hdf_sink new_hdf = (Node (n_meta root) None [], Some AttributeError).
Proof. exact @to_hdf_raises. Qed.
Print Assumptions C60_to_hdf_refuted.

Example C60_to_hdf_example : layout (ex_root 3 4) /\ n_children (ex_root 3 4) <> [].
Proof. split; [apply ex_layout|discriminate]. Qed.

(** From a CSV store: no reading is ever converted, and no exception says so. *)
Theorem C60_from_csv_refuted : forall (A : Type) py_int listing garbled window c (st out : csv A),
  in_buildings st -> (forall l x, In x (listing l) -> In x l) ->
  v_files (fst (convert (csv_source py_int listing garbled window c st) (csv_sink py_int) out)) = v_files out.
Proof. exact @csv_to_csv_nothing. Qed.
Print Assumptions C60_from_csv_refuted.

Definition ex_csv : csv Z := fst (convert (hdf_source tf_cleared 10 (ex_root 3 4)) (csv_sink ex_int) new_csv).
Example C60_from_csv_example : in_buildings ex_csv /\ holds_readings ex_csv /\
  snd (convert (csv_source ex_int (fun l => l) (fun _ => ([], Some RuntimeError)) tf_cleared 10 ex_csv) (csv_sink ex_int) new_csv) = None.
Proof.
  split; [|split; [|vm_compute; reflexivity]].
  - intros k ls H. vm_compute in H. destruct H as [[= <- <-]|[[= <- <-]|[]]]; eexists; vm_compute; reflexivity.
  - exists (KStr (lit "building1/elec/meter1.csv")). eexists. eexists. vm_compute. split; [left; reflexivity|right; left; reflexivity].
Qed.

(** ** C61: what is written to a store is read back *)

Theorem C61_csv_put_partial : forall (A : Type) py_int garbled c k (rows : list (sample A)) st,
  fits c rows -> snd (csv_put py_int k rows st) = None ->
  exists cs, csv_load_key py_int garbled tf_cleared c (fst (csv_put py_int k rows st)) k = (cs, None) /\ concat (map c_rows cs) = rows.
Proof. exact @csv_put_load. Qed.
Print Assumptions C61_csv_put_partial.

Theorem C61_csv_append_new_partial : forall (A : Type) py_int garbled c k (rows : list (sample A)) st p,
  fits c rows -> key_to_path py_int k = Ok p -> get_file p st = None ->
  exists cs, csv_load_key py_int garbled tf_cleared c (fst (csv_append py_int k rows st)) k = (cs, None) /\ concat (map c_rows cs) = rows.
Proof. exact @csv_append_new. Qed.
Print Assumptions C61_csv_append_new_partial.

(** Appending to a file that has readings puts a second header into it. *)
Theorem C61_csv_append_refuted : forall (A : Type) py_int k p (old rows : list (sample A)) st, old <> [] -> rows <> [] ->
  key_to_path py_int k = Ok p -> get_file p st = Some (to_csv old) ->
  exists ls, get_file p (fst (csv_append py_int k rows st)) = Some ls /\ csv_table ls = None.
Proof. exact @csv_append_garbles. Qed.
Print Assumptions C61_csv_append_refuted.

Theorem C61_csv_other : forall (A : Type) py_int k k' p p' (rows : list (sample A)) st,
  key_to_path py_int k = Ok p -> key_to_path py_int k' = Ok p' -> p <> p' ->
  get_file p' (fst (csv_put py_int k rows st)) = get_file p' st /\ get_file p' (fst (csv_append py_int k rows st)) = get_file p' st.
Proof. exact @csv_other_files. Qed.
Print Assumptions C61_csv_other.

(** Meters have the same file only if their keys are the same but for a
    leading slash. *)
Theorem C61_csv_files : forall py_int k k' p, key_to_path py_int k = Ok p -> key_to_path py_int k' = Ok p -> is_meter_key py_int k -> is_meter_key py_int k' ->
  unslash k = unslash k'.
Proof. exact csv_files_differ. Qed.
Print Assumptions C61_csv_files.

Example C61_csv_example : key_to_path ex_int (lit "/building1/elec/meter1") = Ok (lit "building1/elec/meter1.csv") /\
  key_to_path ex_int (lit "building2/gas/meter3") = Ok (lit "building2/gas/meter3.csv") /\
  get_file (lit "building1/elec/meter1.csv") ex_csv = Some (to_csv (ex_table 3)) /\
  get_file (lit "building2/gas/meter3.csv") ex_csv = None /\ fits 10 (ex_table 5) /\
  snd (csv_put ex_int (lit "/building1/elec/meter1") (ex_table 5) ex_csv) = None.
Proof. repeat (split; [vm_compute; reflexivity|]). split; [split; [cbn; lia|cbn; lia]|vm_compute; reflexivity]. Qed.

Theorem C61_hdf_append_partial : forall (A : Type) c k (rows : list (sample A)) root, rows <> [] ->
  let all := match table_at root k with None => rows | Some old => old ++ rows end in
  fits c all -> exists t, hdf_load_key tf_cleared c (hdf_append k rows root) k = ([mkChunk all None t], None).
Proof. exact @hdf_append_load. Qed.
Print Assumptions C61_hdf_append_partial.

Theorem C61_hdf_append_other : forall (A : Type) k k' (rows : list (sample A)) root,
  key_parts k' <> key_parts k -> table_at (hdf_append k rows root) k' = table_at root k'.
Proof. exact @hdf_append_other. Qed.
Print Assumptions C61_hdf_append_other.

Theorem C61_hdf_put_partial : forall (A : Type) c k (rows : list (sample A)) root, fits c rows ->
  exists t, hdf_load_key tf_cleared c (fst (hdf_put k rows root)) k = ([mkChunk rows None t], None).
Proof. exact @hdf_put_load. Qed.
Print Assumptions C61_hdf_put_partial.

(** Putting a table replaces everything at and below its key, nothing else. *)
Theorem C61_hdf_put_other : forall (A : Type) k k' (rows : list (sample A)) root,
  (forall r, key_parts k' <> key_parts k ++ r) -> table_at (fst (hdf_put k rows root)) k' = table_at root k'.
Proof. exact @hdf_put_other. Qed.
Print Assumptions C61_hdf_put_other.

Example C61_hdf_example :
  table_at (hdf_append (lit "/building1/elec/meter1") [(100, 7)%Z] (ex_root 2 4)) (lit "building1/elec/meter1") = Some [(0, 100); (6, 101); (100, 7)]%Z /\
  fits 10 [(0, 100); (6, 101); (100, 7)]%Z /\
  key_parts (lit "/building1/elec/meter2") <> key_parts (lit "/building1/elec/meter1") /\
  (forall r, key_parts (lit "/building1/elec/meter2") <> key_parts (lit "/building1/elec/meter1") ++ r).
Proof.
  split; [vm_compute; reflexivity|]. split; [split; cbn; lia|]. split; [vm_compute; discriminate|]. intros r. vm_compute. discriminate.
Qed.

(** Putting an empty frame keeps the old readings. *)
Theorem C61_put_empty_refuted : exists (root : node Z) k old, old <> [] /\ table_at root k = Some old /\
  snd (hdf_put k [] root) = None /\ table_at (fst (hdf_put k [] root)) k = Some old.
Proof.
  exists (ex_root 3 4), (lit "/building1/elec/meter1"), (ex_table 3). split; [discriminate|]. split; [vm_compute; reflexivity|]. split; vm_compute; reflexivity.
Qed.
Print Assumptions C61_put_empty_refuted.
