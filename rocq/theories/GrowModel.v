(** Model of the statistics of a meter whose stored readings change between the questions:
    total_energy() and good_sections() with the cache (nilmtk/elecmeter.py:581-634, 636-744,
    796-811), on the HDF store (nilmtk/datastore/hdfdatastore.py:151-173).

    Simplifications: those of GoodCacheModel and EnergyModel (no Clip node); the questions name
    no section and no column; a table that is stored has at least one row. *)
From Verif Require Import Base TimeFrameModel SortLib StoreModel ResultsModel GoodSectionsModel EnergyModel WholeModel GoodCacheModel.
From Verif Require AvgModel CacheModel.
Import List. Open Scope Z_scope.

Notation readings_t := (list (sample (list (option Z)))).

(** elecmeter.py:667-729 for [total_energy] with all columns: the table of results and the
    cached table afterwards.  No AC types are asked for, so those of the cached results
    are always enough (lines 696-704). *)
Definition get_energy (columns : list column) (msp : Z) (load : list tf -> gen (chunk (list (option Z)))) (sections0 : list tf) (cache : table energies)
  : res (table energies) * table energies :=
  let sections := filter (fun s => negb (tf_empty s)) sections0 in
  let imported := results_import [] cache sections in
  match results_timeframes imported with
  | Err e => (Err e, cache)
  | Ok done =>
      match CacheModel.missing sections done with
      | [] => (Ok imported, cache)
      | todo =>
          match energy_process columns msp (load todo) with
          | Err e => (Err e, cache)
          | Ok computed =>
              match results_update imported computed with
              | (_, Some e) => (Err e, cache)
              | (merged, None) =>
                  match CacheModel.energy_export computed with
                  | [] => (Ok merged, cache)
                  | new =>
                      (Ok merged,
                       if match cache with [] => true | _ => CacheModel.sc_compat CacheModel.energy_stat cache new end
                       then cache ++ new else CacheModel.energy_export merged)
                  end
              end
          end
      end
  end.

(** results.py:33-40, [combined]: the entry of an AC type in the Series. *)
Definition energy_entry (a : actype) (data : table energies) : option Z :=
  if has_col (en_get a) data then Some (osum (map (fun r => en_get a (r_val r)) data)) else None.

(** What is stored: the readings of the meter, and in the cache its good sections and energies. *)
Record mstate := mkState { now : readings_t; good_cache : list gs_cached; energy_cache : table energies }.

(** Append readings to the meter's table (hdfdatastore.py:151-165), put another table in
    its place (167-173), [clear_cache()], [good_sections()], [total_energy()[a]]. *)
Inductive step_op := Append (l : readings_t) | Put (l : readings_t) | Clear | AskGood | AskEnergy (a : actype).
Inductive answer := Good (r : res (list tf)) | Energy (r : res (option Z)).

(** elecmeter.py:675-682, 796-811: [clear_cache] removes the statistics of the meter. *)
Definition do_op (columns : list column) (msp : Z) (window : tf) (c : nat) (st : mstate) (o : step_op) : list answer * mstate :=
  match o with
  | Append l => ([], mkState (now st ++ l) (good_cache st) (energy_cache st))
  | Put l => ([], mkState l (good_cache st) (energy_cache st))
  | Clear => ([], mkState (now st) [] [])
  | AskGood =>
      let rows := map AvgModel.complete (now st) in
      match stat_sections rows window with
      | Err e => ([Good (Err e)], st)
      | Ok ss =>
          let '(a, cache) := get_good msp (fun ss => hdf_load rows window ss 10 c) ss (good_cache st) in
          ([Good a], mkState (now st) cache (energy_cache st))
      end
  | AskEnergy a =>
      match stat_sections (now st) window with
      | Err e => ([Energy (Err e)], st)
      | Ok ss =>
          let '(d, cache) := get_energy columns msp (fun ss => hdf_load (now st) window ss 0 c) ss (energy_cache st) in
          ([Energy (do t <- d; Ok (energy_entry a t))], mkState (now st) (good_cache st) cache)
      end
  end.
Fixpoint do_ops (columns : list column) (msp : Z) (window : tf) (c : nat) (st : mstate) (h : list step_op) : list answer :=
  match h with
  | [] => []
  | o :: r => let '(a, st') := do_op columns msp window c st o in a ++ do_ops columns msp window c st' r
  end.
(** A meter in a store with an empty cache. *)
Definition meter_history (columns : list column) (msp : Z) (c : nat) (rows : readings_t) (h : list step_op) : list answer :=
  do_ops columns msp tf_cleared c (mkState rows [] []) h.
