(** C89: what a store holds is determined by the history of operations on it. *)
From Coq Require Import Ascii String.
From Verif Require Import Base TimeFrameModel StoreModel StoreSpec KeyModel KeySpec ConvModel ConvSpec RemoveModel RemoveSpec RemoveProofs RemoveProofs2 RemoveProofs3.
Import List.
Open Scope list_scope.
Open Scope nat_scope.

(** ** HDF5 files *)

(** A load after a [put] delivers its rows and those appended since, as long
    as the key has not been erased again. *)
Theorem C89_put : forall (A : Type) c h1 q k rows h2 l (root : node A),
  same_key q k -> rows <> [] -> Forall (fun e => ~ erases e k) h2 -> appended k h2 l ->
  table_at (hdf_run (h1 ++ Put q rows :: h2) root) k = Some (rows ++ l) /\
  (fits c (rows ++ l) -> exists t, hdf_load_key tf_cleared c (hdf_run (h1 ++ Put q rows :: h2) root) k = ([mkChunk (rows ++ l) None t], None)).
Proof. intros. split; [apply after_put; assumption|intros; apply load_after_put; assumption]. Qed.
Print Assumptions C89_put.

(** After the key, or something above it, was removed (or something above it
    was put) it holds what has been appended since, and nothing else; if
    nothing has, a load raises. *)
Theorem C89_removed : forall (A : Type) c h1 e k h2 l (root : node A),
  destroys e k -> Forall (fun e => ~ erases e k) h2 -> appended k h2 l ->
  table_at (hdf_run (h1 ++ e :: h2) root) k = match l with [] => None | _ => Some l end /\
  (l = [] -> exists x, hdf_load_key tf_cleared c (hdf_run (h1 ++ e :: h2) root) k = ([], Some x) /\ (x = KeyError \/ x = TypeError)).
Proof.
  intros A c h1 e k h2 l root D F K. split.
  - rewrite (after_erase h1 e k h2 l root D F K). destruct l; reflexivity.
  - intros ->. apply load_after_erase; assumption.
Qed.
Print Assumptions C89_removed.

(** In a new file a key holds what has been appended. *)
Theorem C89_new : forall (A : Type) h k (l : list (sample A)),
  Forall (fun e => ~ erases e k) h -> appended k h l -> table_at (hdf_run h new_hdf) k = match l with [] => None | _ => Some l end.
Proof. intros A h k l F K. rewrite (from_new h k l F K). destruct l; reflexivity. Qed.
Print Assumptions C89_new.

(** The rows appended in a history exist, so that the three theorems cover
    every history. *)
Theorem C89_appended : forall (A : Type) k (h : list (event A)), exists l, appended k h l.
Proof. exact @appended_exists. Qed.
Print Assumptions C89_appended.

(** Metadata: those saved last, unless the key has been erased since. *)
Theorem C89_metadata : forall (A : Type) h1 q k m h2 (root : node A),
  same_key q k -> present (hdf_run h1 root) k -> Forall (fun e => ~ erases e k /\ ~ saves e k) h2 ->
  hdf_load_metadata (hdf_run (h1 ++ Save q m :: h2) root) k = Ok m.
Proof. exact @after_save. Qed.
Print Assumptions C89_metadata.

Theorem C89_metadata_removed : forall (A : Type) h1 e k h2 (root : node A),
  erases e k -> Forall (fun e => ~ erases e k /\ ~ saves e k) h2 ->
  hdf_load_metadata (hdf_run (h1 ++ e :: h2) root) k = Err AttributeError.
Proof. exact @after_erase_meta. Qed.
Print Assumptions C89_metadata_removed.

(** What is listed: groups and tables on the way to something written and not
    destroyed since. *)
Theorem C89_present : forall (A : Type) (h : list (event A)) k, present (hdf_run h new_hdf) k <->
  is_root k \/ exists h1 e h2, h = h1 ++ e :: h2 /\ makes e k /\ Forall (fun e => ~ destroys e k) h2.
Proof. exact @present_history. Qed.
Print Assumptions C89_present.

Theorem C89_listing : forall (A : Type) (root : node A) k names k' s,
  hdf_elements_below root k = Ok names -> key_parts k' = key_parts k ++ [s] -> (In s names <-> present root k').
Proof. exact @listing. Qed.
Print Assumptions C89_listing.

(** A removal fails if there is nothing to remove, or for the root, and then
    changes nothing. *)
Theorem C89_outcome : forall (A : Type) k (root : node A),
  hdf_remove k root = (root, Some KeyError) /\ ~ present root k \/
  hdf_remove k root = (root, Some GenericException) /\ is_root k \/
  snd (hdf_remove k root) = None /\ present root k /\ ~ is_root k.
Proof. exact @remove_outcome. Qed.
Print Assumptions C89_outcome.

(** Operations on keys neither of which is above the other can be exchanged. *)
Theorem C89_order : forall (A : Type) e e' (root : node A) k, apart e e' ->
  table_at (hdf_run [e; e'] root) k = table_at (hdf_run [e'; e] root) k /\
  hdf_load_metadata (hdf_run [e; e'] root) k = hdf_load_metadata (hdf_run [e'; e] root) k /\
  (present (hdf_run [e; e'] root) k <-> present (hdf_run [e'; e] root) k).
Proof. exact @commute. Qed.
Print Assumptions C89_order.

(** Removing what was appended to a new key restores all tables and metadata, *)
Theorem C89_undo : forall (A : Type) k q rows (root : node A) k', same_key q k -> ~ present root k -> ~ is_root k ->
  table_at (hdf_run [Append k rows; Remove q] root) k' = table_at root k' /\
  hdf_load_metadata (hdf_run [Append k rows; Remove q] root) k' = hdf_load_metadata root k'.
Proof. exact @undo. Qed.
Print Assumptions C89_undo.

(** but not what is listed: the groups above it stay, without metadata if they
    had none. *)
Theorem C89_undo_refuted : forall (A : Type) k q rows (root : node A) k', same_key q k -> rows <> [] -> covers k' k -> ~ same_key k' k ->
  present (hdf_run [Append k rows; Remove q] root) k'.
Proof. exact @undo_groups. Qed.
Print Assumptions C89_undo_refuted.

Definition ex_meter : str := lit "/building1/elec/meter1".
Definition ex_history : list (event Z) :=
  [Append ex_meter [(0, 100)%Z]; Append (lit "/building1/elec/meter10") [(0, 7)%Z]; Save (lit "/building1") (Dict []);
   Put (lit "building1/elec/meter1") [(1, 101); (2, 102)]%Z; Append ex_meter [(3, 103)%Z]].

Example C89_example_put : table_at (hdf_run ex_history new_hdf) ex_meter = Some [(1, 101); (2, 102); (3, 103)]%Z /\
  same_key (lit "building1/elec/meter1") ex_meter /\ appended ex_meter [Append ex_meter [(3, 103)%Z]] [(3, 103)%Z] /\
  Forall (fun e => ~ erases e ex_meter) [Append ex_meter [(3, 103)%Z]] /\ fits 10 [(1, 101); (2, 102); (3, 103)]%Z.
Proof.
  split; [vm_compute; reflexivity|]. split; [vm_compute; reflexivity|]. split; [apply (appended_here ex_meter ex_meter [(3, 103)%Z] [] []); [reflexivity|constructor]|].
  split; [constructor; [intros []|constructor]|]. split; [|cbn; lia]. repeat constructor.
Qed.

Example C89_example_removed :
  let root := hdf_run (ex_history ++ [Remove ex_meter]) new_hdf in
  table_at root ex_meter = None /\ table_at root (lit "/building1/elec/meter10") = Some [(0, 7)%Z] /\
  hdf_load_metadata root (lit "/building1") = Ok (Dict []) /\ destroys (A := Z) (Remove (lit "/building1")) ex_meter /\
  destroys (Put (lit "/building1") [(0, 0)%Z]) ex_meter /\
  snd (hdf_remove ex_meter root) = Some KeyError /\
  hdf_load_metadata (hdf_run [Remove (lit "/building1")] root) (lit "/building1") = Err AttributeError.
Proof.
  split; [vm_compute; reflexivity|]. split; [vm_compute; reflexivity|]. split; [vm_compute; reflexivity|]. split; [|split; [|split; vm_compute; reflexivity]].
  - split; [discriminate|]. exists [lit "elec"; lit "meter1"]. reflexivity.
  - split; [discriminate|]. split; [exists [lit "elec"; lit "meter1"]; reflexivity|discriminate].
Qed.

Example C89_example_order : apart (Append ex_meter [(0, 1)%Z]) (Remove (lit "/building1/elec/meter10")).
Proof. split; intros [r K]; vm_compute in K; discriminate. Qed.

Example C89_example_undo : ~ present (new_hdf : node Z) ex_meter /\ ~ is_root ex_meter /\ covers (lit "/building1") ex_meter /\ ~ same_key (lit "/building1") ex_meter /\
  let root := hdf_run [Append ex_meter [(0, 1)%Z]; Remove ex_meter] new_hdf in
  hdf_elements_below root [slash] = Ok [lit "building1"] /\ hdf_load_metadata root (lit "/building1") = Err AttributeError /\
  hdf_elements_below (new_hdf : node Z) [slash] = Ok [].
Proof.
  split; [intros K; apply K; reflexivity|]. split; [discriminate|]. split; [exists [lit "elec"; lit "meter1"]; reflexivity|]. split; [discriminate|].
  vm_compute. repeat split.
Qed.

(** ** CSV stores *)

(** The file of a key after a [put]: the lines of its rows and of what was
    appended since.  Without further appends a load delivers the rows. *)
Theorem C89_csv_put : forall (A : Type) py_int empty_dir garbled c h1 q k p rows h2 l (st : csv A),
  key_to_path py_int q = Ok p -> key_to_path py_int k = Ok p -> Forall (fun e => ~ csv_erases py_int e p) h2 -> csv_appended py_int p h2 l ->
  get_file p (csv_run py_int empty_dir (h1 ++ Put q rows :: h2) st) = Some (to_csv rows ++ l) /\
  (l = [] -> fits c rows -> exists cs, csv_load_key py_int garbled tf_cleared c (csv_run py_int empty_dir (h1 ++ Put q rows :: h2) st) k = (cs, None) /\
     concat (map c_rows cs) = rows).
Proof.
  intros A py_int empty_dir garbled c h1 q k p rows h2 l st E1 E2 F K.
  pose proof (csv_after_put py_int empty_dir h1 q p rows h2 l st E1 F K) as G. split; [exact G|]. intros -> Fit. rewrite app_nil_r in G.
  exact (load_lines py_int empty_dir garbled c k p rows _ E2 G Fit).
Qed.
Print Assumptions C89_csv_put.

(** After the removal of the key, or of a directory above it: what has been
    appended since.  If nothing has, [load] and [[]] raise; one append is read
    back. *)
Theorem C89_csv_removed : forall (A : Type) py_int empty_dir garbled c h1 q k p h2 l (st : csv A), key_to_path py_int k = Ok p ->
  (exists d, key_to_path py_int q = Ok d /\
     (d = p \/ get_file d (csv_run py_int empty_dir h1 st) = None /\ (d = [] \/ exists d' n, d = d' ++ repeat "/"%char n /\ below d' p))) ->
  Forall (fun e => ~ csv_erases py_int e p) h2 -> csv_appended py_int p h2 l ->
  let st' := csv_run py_int empty_dir (h1 ++ Remove q :: h2) st in
  get_file p st' = match l with [] => None | _ => Some l end /\
  (l = [] -> csv_load_key py_int garbled tf_cleared c st' k = ([], Some GenericException) /\ csv_getitem py_int k st' = Err KeyError) /\
  (forall rows, l = to_csv rows -> fits c rows -> exists cs, csv_load_key py_int garbled tf_cleared c st' k = (cs, None) /\ concat (map c_rows cs) = rows).
Proof.
  intros A py_int empty_dir garbled c h1 q k p h2 l st E S F K st'.
  pose proof (csv_after_remove py_int empty_dir h1 q p h2 l st S F K) as G. fold st' in G. split; [exact G|]. split.
  - intros ->. exact (load_missing py_int garbled c k p st' E G).
  - intros rows -> Fit. destruct (to_csv rows) eqn:T; [destruct rows; discriminate|]. rewrite <- T in G. exact (load_lines py_int empty_dir garbled c k p rows st' E G Fit).
Qed.
Print Assumptions C89_csv_removed.

(** Whatever is not erased stays. *)
Theorem C89_csv_kept : forall (A : Type) py_int empty_dir k (st : csv A) p, ~ csv_erases (A := A) py_int (Remove k) p ->
  get_file p (fst (csv_remove py_int (empty_dir st) k st)) = get_file p st.
Proof. exact @remove_files. Qed.
Print Assumptions C89_csv_kept.

(** Removing a building removes the files of its meters, no other building's
    (building 10 stays when building 1 goes), and leaves all metadata, also
    those of the building: the data set still declares meters whose readings
    are gone, unlike with an HDF5 file (C89_metadata_removed). *)
Theorem C89_csv_building_refuted : forall (A : Type) py_int (empty_dir : csv A -> str -> bool), reads_numerals py_int ->
  forall b (st : csv A), (1 <= b)%Z -> get_file (building_name b) st = None ->
  let st' := fst (csv_remove py_int (empty_dir st) (absolute [building_name b]) st) in
  (forall b' u m p, (1 <= b')%Z -> (1 <= m)%Z -> component u -> key_to_path py_int (meter_key b' u m) = Ok p ->
     get_file p st' = if Z.eqb b b' then None else get_file p st) /\
  (forall k, csv_load_metadata py_int st' k = csv_load_metadata py_int st k).
Proof. exact @remove_building. Qed.
Print Assumptions C89_csv_building_refuted.

Definition ex_int (s : str) : option Z := if list_eq_dec Ascii.ascii_dec s (decimal 1) then Some 1%Z else if list_eq_dec Ascii.ascii_dec s (decimal 10) then Some 10%Z else None.
Definition ex_csv : csv Z := csv_run ex_int (fun _ _ => false)
  [Put ex_meter [(0, 100); (6, 101)]%Z; Append (lit "/building10/elec/meter1") [(0, 7)%Z];
   Save (lit "/building1") (Dict [(KStr (lit "elec_meters"), Dict [(KInt 1, Dict [])])])] new_csv.

Example C89_example_csv :
  key_to_path ex_int ex_meter = Ok (lit "building1/elec/meter1.csv") /\ key_to_path ex_int (lit "/building1") = Ok (lit "building1") /\
  below (lit "building1") (lit "building1/elec/meter1.csv") /\ get_file (lit "building1") ex_csv = None /\
  let st' := csv_run ex_int (fun _ _ => false) [Remove (lit "/building1")] ex_csv in
  get_file (lit "building1/elec/meter1.csv") ex_csv = Some [Header; Row (0, 100)%Z; Row (6, 101)%Z] /\
  get_file (lit "building1/elec/meter1.csv") st' = None /\ get_file (lit "building10/elec/meter1.csv") st' = Some [Header; Row (0, 7)%Z] /\
  csv_load_metadata ex_int st' (lit "/building1") =
    Ok (Dict [(KStr (lit "elec_meters"), Dict [(KInt 1, Dict [(KStr (lit "data_location"), Atom (lit "/building1/elec/meter1"))])])]) /\
  snd (csv_remove ex_int (fun _ => false) (lit "/building1") st') = Some GenericException.
Proof.
  split; [vm_compute; reflexivity|]. split; [vm_compute; reflexivity|]. split; [exists (lit "elec/meter1.csv"); reflexivity|]. vm_compute. repeat split.
Qed.
