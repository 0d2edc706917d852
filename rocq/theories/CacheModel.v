(** Model of the cache of statistics (nilmtk/elecmeter.py:636-744, 770-835; nilmtk/__init__.py: one
    STATS_CACHE for the whole process). *)
From Coq Require Import Ascii String.
From Verif Require Import Base TimeFrameModel SortLib StoreModel ResultsModel EnergyModel KeyModel.
Import List.
Open Scope list_scope.
Open Scope Z_scope.

(** An instance is a number or a tuple of numbers (elecmeter.py:18, 69-76). *)
Inductive instance := One (n : Z) | Many (l : list Z).
Record meter_id := mkId { id_instance : instance; id_building : Z; id_dataset : str }.

(** elecmeter.py:786-793. *)
Fixpoint join_underscore (l : list str) : str :=
  match l with
  | [] => []
  | [x] => x
  | x :: r => x ++ lit "_" ++ join_underscore r
  end.
Definition meter_str (i : instance) : str := match i with One n => decimal n | Many l => join_underscore (map decimal l) end.
Definition key_for_cached_stat (m : meter_id) (stat : str) : str :=
  lit "building" ++ decimal (id_building m) ++ lit "/elec/cache/meter" ++ meter_str (id_instance m) ++ lit "/" ++ stat.

(** What the cache needs to know of a class of results: export_to_cache; whether the columns of
    a table in the store and of one to append agree (otherwise HDFStore.append raises ValueError); the keys of
    simple(), [None] if it has none (not a Series). *)
Record stat_class (A : Type) := mkStat { sc_export : table A -> table A; sc_compat : table A -> table A -> bool; sc_keys : table A -> option (list actype) }.
Arguments sc_export {A}. Arguments sc_compat {A}. Arguments sc_keys {A}. Arguments mkStat {A}.

(** timeframe.py:225-228, [==]. *)
Definition tf_same (a b : tf) : bool := oeqb (tf_start a) (tf_start b) && oeqb (tf_end a) (tf_end b) && Bool.eqb (tf_empty a) (tf_empty b).
Definition ac_in (a : actype) (l : list actype) : bool := existsb (ac_eqb a) l.

(** elecmeter.py:691-695: sorted(set(sections) - set(timeframes)); frames with one start are kept in the order
    given (Python's order of a set is arbitrary). *)
Fixpoint unique (l : list tf) : list tf := match l with [] => [] | t :: r => t :: filter (fun u => negb (tf_same t u)) (unique r) end.
Definition missing (sections done : list tf) : list tf := sort_by tf_start (filter (fun s => negb (existsb (tf_same s) done)) (unique sections)).

Section GetStat.
  Context {A : Type} (sc : stat_class A).
  (** [chunks s]: the chunks that the store and the nodes before the statistic deliver for a section, each
      with its frame and its result (elecmeter.py:746-768). *)
  Variable chunks : tf -> list (tf * A).
  Definition compute_stat (sections : list tf) : res (table A) := foldM (fun d p => results_append d (fst p) (snd p)) (flat_map chunks sections) [].
  (** elecmeter.py:667-729, for given sections and without preprocessing ([ac]: the AC types of the columns asked
      for): the table of results and the cached table afterwards. *)
  Definition get_stat (ac : list actype) (sections0 : list tf) (cache : table A) : res (table A) * table A :=
    let sections := filter (fun s => negb (tf_empty s)) sections0 in
    let imported := results_import [] cache sections in
    match results_timeframes imported with
    | Err e => (Err e, cache)
    | Ok done =>
        let '(start, todo) :=
          match sc_keys sc imported with
          | None => (imported, missing sections done)
          | Some ks => if forallb (fun a => ac_in a ks) ac then (imported, missing sections done) else ([], sections)
          end in
        match todo with
        | [] => (Ok start, cache)
        | _ =>
            match compute_stat todo with
            | Err e => (Err e, cache)
            | Ok computed =>
                match results_update start computed with
                | (_, Some e) => (Err e, cache)
                | (d, None) =>
                    match sc_export sc computed with
                    | [] => (Ok d, cache)
                    | new => (Ok d, if match cache with [] => true | _ => sc_compat sc cache new end then cache ++ new else sc_export sc d)
                    end
                end
            end
        end
    end.
End GetStat.

(** A history of requests, each for some AC types ([]: all columns) and some sections: the answers, and the
    cache at the end.  The columns loaded are those asked for (elecmeter.py:665-668, 709-710). *)
Fixpoint serve {A} (sc : stat_class A) (chunks : list actype -> tf -> list (tf * A)) (h : list (list actype * list tf)) (cache : table A)
  : list (res (table A)) * table A :=
  match h with
  | [] => ([], cache)
  | (ac, sections) :: r =>
      let '(a, cache') := get_stat sc (chunks ac) ac sections cache in
      let '(l, final) := serve sc chunks r cache' in (a :: l, final)
  end.

(** TotalEnergyResults: results.py:185-187, totalenergyresults.py:41-47.  NaNs of the columns that the table has
    become 0; the columns are those of the table's rows; simple() is the Series of the sums. *)
Definition fill_zero (b : bool) (o : option Z) : option Z := match o with Some v => Some v | None => if b then Some 0 else None end.
Definition energy_export (t : table energies) : table energies :=
  map (fun r => mkRow (r_start r) (r_end r) (mkEn (fill_zero (has_col en_active t) (en_active (r_val r))) (fill_zero (has_col en_reactive t) (en_reactive (r_val r))) (fill_zero (has_col en_apparent t) (en_apparent (r_val r))))) t.
Definition energy_columns (t : table energies) : list actype :=
  (if has_col en_active t then [Active] else []) ++ (if has_col en_apparent t then [Apparent] else []) ++ (if has_col en_reactive t then [Reactive] else []).
Definition energy_stat : stat_class energies :=
  mkStat energy_export
    (fun a b => Bool.eqb (has_col en_active a) (has_col en_active b) && Bool.eqb (has_col en_apparent a) (has_col en_apparent b) && Bool.eqb (has_col en_reactive a) (has_col en_reactive b))
    (fun t => Some (energy_columns t)).

(** dropoutrateresults.py:17-36: the table is stored as it is and simple() is a number, which has no keys. *)
Definition dropout_stat : stat_class dropout := mkStat (fun t => t) (fun _ _ => true) (fun _ => None).

(** The energies of the chunks of a section as the HDF store delivers them (hdfdatastore.py:65-148, then
    totalenergy.py:18-28), for the columns of the AC types asked for. *)
Definition columns_for (columns : list column) (ac : list actype) : list column :=
  match ac with [] => columns | _ => filter (fun c => match snd c with Some a => ac_in a ac | None => false end) columns end.
Definition pick (columns chosen : list column) (row : list (option Z)) : list (option Z) :=
  map snd (filter (fun p => existsb (col_eqb (fst p)) chosen) (combine columns row)).
Definition hdf_energies (rows : list (sample (list (option Z)))) (columns : list column) (window : tf) (msp : Z) (csize : nat) (ac : list actype) (section : tf)
  : list (tf * energies) :=
  let chosen := columns_for columns ac in
  map (fun c => (c_tf c, match get_total_energy chosen (map (fun r => (fst r, pick columns chosen (snd r))) (c_rows c)) msp with Ok e => e | Err _ => mkEn None None None end))
      (fst (hdf_load_section rows window section 0 csize)).
