(** Property theorems for the Dataport converter. *)
From Coq Require Import Lia Permutation Sorted.
From Verif Require Import Base DataportModel DataportSpec DataportProofs DataportProofs2 DataportProofs3 DataportProofs4.
Import List. Open Scope Z_scope.

(** *** C76: converting Dataport CSV files *)
(** Partial: a building with all its rows in one file, whose chunks all have readings in
    the same columns, gets one meter for each of its columns: the meter's table has the
    power of that column for each row in order of time, and the metadata names the
    appliance of the column, once, with this meter. *)
Theorem C76_single_partial : forall typ fs names ids t metas n b ms,
  NoDup ids -> convert typ fs names ids = Ok (t, metas) -> In b ids -> only_in fs names n b ->
  NoDup (f_header (fs n)) -> steady (fs n) b -> meters_of (f_header (fs n)) (file_rows (fs n) b) ms -> ms <> [] ->
  exists j md, nth_error metas j = Some (b, md) /\ m_instance md = Some (S j) /\
    (forall k c, nth_error ms k = Some c -> exists l,
       Forall2 (fun r x => fst x = r_time r /\ is_power (f_header (fs n)) (file_rows (fs n) b) c r (snd x)) (file_rows (fs n) b) l /\
       by_time l (table t (S j, S k))) /\
    (forall m, (m = 0 \/ length ms < m)%nat -> table t (S j, m) = [] /\ dget Nat.eqb (m_meters md) m = None) /\
    (forall k, dget Nat.eqb (m_meters md) (S k) = Some true <-> nth_error ms k = Some Use) /\
    (forall c m, In (c, m) (map (fun a => (p_name a, p_meter a)) (m_apps md)) <-> exists k q, m = S k /\ c = App q /\ nth_error ms k = Some c) /\
    NoDup (map p_name (m_apps md)).
Proof. exact single_ok. Qed.
Print Assumptions C76_single_partial.
Example C76_example_single : exists t metas, convert typ0 (fun _ => plant) [3%nat] [5; 8] = Ok (t, metas) /\ only_in (fun _ => plant) [3%nat] 3 5 /\
  NoDup (f_header plant) /\ steady plant 5 /\ meters_of (f_header plant) (file_rows plant 5) [App 3; App 4; Use] /\
  table t (1%nat, 3%nat) = [(10, Some 4000); (30, Some 7000)] /\ table t (1%nat, 2%nat) = [(10, Some 3000); (30, Some 2000)] /\
  nth_error metas 0 = Some (5, mkMeta (Some 1%nat) [(1%nat, false); (2%nat, false); (3%nat, true)] [mkApp (App 3) 1 0 1; mkApp (App 4) 2 0 2] true).
Proof.
  eexists _, _. split; [vm_compute; reflexivity|]. split. { split; [now left|]. split; [repeat constructor; intros []|]. intros n' [<-|[]] H. now elim H. }
  split; [repeat constructor; cbn; intuition discriminate|]. split; [exact plant_steady|]. split; [apply meters_eq; reflexivity|]. repeat split.
Qed.

(** In general, the table of meter [m] of the [j]-th building with data has, file after
    file in the order of their names, what the [m]-th column of the file has. *)
Theorem C76_tables_partial : forall typ fs names ns ids t metas,
  Permutation names ns -> StronglySorted le ns -> NoDup ids -> convert typ fs names ids = Ok (t, metas) ->
  (forall j b md Fs, nth_error metas j = Some (b, md) -> Forall2 (fun n f => extracts (fs n) b f) ns Fs ->
     forall m, table t (S j, m) = concat (map (fun f => column_rows f m) Fs)) /\
  (forall i m, table t (i, m) <> [] -> (1 <= i <= length metas)%nat).
Proof. exact tables_ok. Qed.
Print Assumptions C76_tables_partial.

(** The buildings with data are numbered in the order given. *)
Theorem C76_buildings : forall typ fs names ids t metas P,
  NoDup ids -> convert typ fs names ids = Ok (t, metas) ->
  (forall b, P b = true <-> exists n f, In n names /\ yields_frame (fs n) b f) -> map fst metas = filter P ids.
Proof. exact buildings_list. Qed.
Print Assumptions C76_buildings.
Example C76_example_buildings : exists t metas, convert typ0 (fun _ => plant) [3%nat] [2; 8; 3; 5] = Ok (t, metas) /\ map fst metas = [8; 5] /\
  map (fun x => m_instance (snd x)) metas = [Some 1%nat; Some 2%nat] /\ table t (1%nat, 1%nat) = [(10, Some 6000); (30, Some 2000)].
Proof. eexists _, _. split; [vm_compute; reflexivity|]. repeat split. Qed.

(** The metadata: number, appliances of each file, their types and numbers, site meters,
    and whether the building has solar panels. *)
Theorem C76_metadata : forall typ fs names ns ids t metas,
  Permutation names ns -> StronglySorted le ns -> NoDup ids -> convert typ fs names ids = Ok (t, metas) ->
  forall j b md Fs, nth_error metas j = Some (b, md) -> Forall2 (fun n f => extracts (fs n) b f) ns Fs ->
  describes typ (S j) Fs md /\ NoDup (map (fun a => (p_type a, p_instance a)) (m_apps md)) /\
  (m_pv md = true <-> exists n ch, In n names /\ In ch (f_chunks (fs n)) /\ with_solar (f_header (fs n)) (of_building b ch)).
Proof. exact metadata_ok. Qed.
Print Assumptions C76_metadata.

(** What one steady file gives. *)
Theorem C76_file : forall fl b ms,
  steady fl b -> meters_of (f_header fl) (file_rows fl b) ms ->
  (with_solar (f_header fl) (file_rows fl b) -> with_grid (f_header fl) (file_rows fl b)) ->
  (ms = [] -> forall f, ~ yields_frame fl b f) /\
  (ms <> [] -> exists f, yields_frame fl b f /\ columns f = ms /\
     forall k c, nth_error ms k = Some c -> exists l,
       Forall2 (fun r x => fst x = r_time r /\ is_power (f_header fl) (file_rows fl b) c r (snd x)) (file_rows fl b) l /\
       by_time l (column_rows f (S k))).
Proof. exact file_ok. Qed.
Print Assumptions C76_file.

(** The conversion fails exactly when a chunk has readings of a building's solar panels,
    but none of its grid. *)
Theorem C76_errors : forall typ fs names ids, NoDup ids ->
  (forall e, convert typ fs names ids = Err e -> e = KeyError) /\
  ((exists e, convert typ fs names ids = Err e) <-> exists b n, In b ids /\ In n names /\ unusable (fs n) b).
Proof. exact errors_ok. Qed.
Print Assumptions C76_errors.
Example C76_example_errors :
  convert typ0 (fun _ => mkFile [Grid; Solar] [[mk 5 0 [(Grid, 1); (Solar, 2)]]; [mk 5 10 [(Solar, 2)]]]) [0%nat] [5] = Err KeyError /\
  exists p, convert typ0 (fun _ => mkFile [Grid; Solar] [[mk 5 0 [(Grid, 1); (Solar, 2)]; mk 5 10 [(Solar, 2)]]]) [0%nat] [5] = Ok p.
Proof. split; [reflexivity|]. eexists. vm_compute. reflexivity. Qed.

(** The order in which the files are given does not matter. *)
Theorem C76_order : forall typ fs names names' ids, Permutation names names' -> convert typ fs names ids = convert typ fs names' ids.
Proof. exact order_ok. Qed.
Print Assumptions C76_order.
Example C76_example_order : convert typ0 months [1%nat; 0%nat] [5] = convert typ0 months [0%nat; 1%nat] [5] /\
  exists t metas, convert typ0 months [1%nat; 0%nat] [5] = Ok (t, metas) /\ table t (1%nat, 1%nat) = [(0, Some 3000); (10, Some 4000)].
Proof. split; [apply C76_order, perm_swap|]. eexists _, _. split; [vm_compute; reflexivity|]. reflexivity. Qed.

(** With two files, the same meter can have the readings of two appliances... *)
Theorem C76_mixed_refuted : exists typ fs names t metas md,
  NoDup names /\ convert typ fs names [5] = Ok (t, metas) /\ metas = [(5, md)] /\
  (forall n, In n names -> steady (fs n) 5 /\ NoDup (f_header (fs n)) /\ exists k, meters_of (f_header (fs n)) (file_rows (fs n) 5) [App k]) /\
  table t (1%nat, 1%nat) = [(0, Some 1000); (10, Some 2000); (20, Some 7000)] /\
  map (fun a => (p_name a, p_meter a)) (m_apps md) = [(App 1, 1%nat); (App 2, 1%nat)].
Proof. exact two_files. Qed.
Print Assumptions C76_mixed_refuted.

(** ... and one appliance is listed as two. *)
Theorem C76_listed_refuted : exists typ fs names t metas md,
  NoDup names /\ convert typ fs names [5] = Ok (t, metas) /\ metas = [(5, md)] /\
  (forall n, In n names -> steady (fs n) 5 /\ meters_of (f_header (fs n)) (file_rows (fs n) 5) [Use; App 1]) /\
  m_apps md = [mkApp (App 1) 2 (typ 1%nat) 1; mkApp (App 1) 2 (typ 1%nat) 2].
Proof. exact listed_twice. Qed.
Print Assumptions C76_listed_refuted.

(** How many rows are read at a time changes the numbers of the meters, and the total
    power. *)
Theorem C76_chunks_refuted :
  (exists typ fl fl' t t' md md', f_header fl = f_header fl' /\ concat (f_chunks fl) = concat (f_chunks fl') /\
    convert typ (fun _ => fl) [0%nat] [5] = Ok (t, [(5, md)]) /\ convert typ (fun _ => fl') [0%nat] [5] = Ok (t', [(5, md')]) /\
    map (fun a => (p_name a, p_meter a)) (m_apps md) = [(App 1, 1%nat); (App 2, 2%nat)] /\
    map (fun a => (p_name a, p_meter a)) (m_apps md') = [(App 2, 1%nat); (App 1, 2%nat)]) /\
  (exists typ fl fl' t t' md md', f_header fl = f_header fl' /\ concat (f_chunks fl) = concat (f_chunks fl') /\
    convert typ (fun _ => fl) [0%nat] [5] = Ok (t, [(5, md)]) /\ convert typ (fun _ => fl') [0%nat] [5] = Ok (t', [(5, md')]) /\
    dget Nat.eqb (m_meters md) 1%nat = Some true /\ dget Nat.eqb (m_meters md') 1%nat = Some true /\
    table t (1%nat, 1%nat) = [(0, Some 5000); (10, None)] /\ table t' (1%nat, 1%nat) = [(0, Some 5000); (10, Some 4000)]).
Proof. exact chunks_matter. Qed.
Print Assumptions C76_chunks_refuted.

(** A building given twice gets its readings twice. *)
Theorem C76_twice_refuted : exists typ fs names t metas,
  NoDup names /\ convert typ fs names [5; 5] = Ok (t, metas) /\ length metas = 1%nat /\ file_rows (fs 0%nat) 5 = [rd] /\ names = [0%nat] /\
  table t (1%nat, 1%nat) = [(10, Some 4000); (10, Some 4000)].
Proof. exact ids_twice. Qed.
Print Assumptions C76_twice_refuted.
