(** Model of the proportion of energy between two meters of a store
    (nilmtk/electric.py:207-219, 267-309; nilmtk/metergroup.py:1073-1097), on the HDF
    store, without a cache, and of the two [total_energy] calls each makes over
    the good sections of the other meter (nilmtk/elecmeter.py:581-595, 618-634, 675-682). *)
From Coq Require Import QArith.
From Verif Require Import Base TimeFrameModel StoreModel ResultsModel GoodSectionsModel EnergyModel WholeModel GapsModel TopModel GStatsModel.
Import List. Open Scope Z_scope.

(** An ElecMeter: the columns and the rows of its table, and the
    [max_sample_period] of its device (elecmeter.py:632, stats/totalenergy.py:18-28). *)
Record stored := mkStored { st_columns : list column; st_msp : Z; st_rows : list (sample (list (option Z))) }.

(** elecmeter.py:581-595, [total_energy(sections=...)]; results.py:33-40, [combined].  In
    J instead of kWh; the AC types are in a fixed order. *)
Definition energies_over (x : stored) (window : tf) (sections : list tf) (csize : nat) : res series :=
  do data <- energy_process (st_columns x) (st_msp x) (hdf_load (st_rows x) window (nonempty sections) 0 csize);
  Ok (flat_map (fun a => if has_col (en_get a) data then [(a, Some (inject_Z (osum (map (fun r => en_get a (r_val r)) data))))] else [])
               [Active; Apparent; Reactive]).

(** elecmeter.py:618-634, [good_sections()] of a meter: a row counts if none of its
    values is missing (goodsections.py:96). *)
Definition good_of (x : stored) (window : tf) (csize : nat) : res (list tf) := whole_good (st_msp x) (validity present_all (st_rows x)) window csize.

(** electric.py:284-309, [own.proportion_of_energy(other)]. *)
Definition stored_proportion (own other : stored) (window : tf) (csize : nat) : res num :=
  do good <- good_of other window csize;
  do e <- energies_over other window good csize;
  if Qeq_bool (series_sum (map snd e)) 0 then Ok NaN
  else do o <- energies_over own window good csize; proportion_of_energy o e.

(** metergroup.py:1080-1097, [proportion_of_energy_submetered()] of the group of a mains
    meter and the meters directly downstream of it. *)
Definition stored_submetered (downstream : list stored) (mains : stored) (window : tf) (csize : nat) : res num :=
  do acc <- foldM (fun acc m => do p <- stored_proportion m mains window csize;
                                match p with NaN => Ok acc | _ => Ok (add_num (fst acc) p, false) end)
                  downstream (Fin 0, true);
  Ok (if snd acc then NaN else fst acc).

(** electric.py:207-219, [own.proportion_of_upstream()] without arguments: the
    division of the two Series is aligned on the union of their AC types, NaN
    where one of them has none. *)
Definition entry (s : series) (a : actype) : option Q := match lookup a s with Some v => v | None => None end.
Definition stored_upstream (own upstream : stored) (window : tf) (csize : nat) : res num :=
  do good <- good_of upstream window csize;
  do o <- energies_over own window good csize;
  do e <- energies_over upstream window good csize;
  do a <- best_type (o ++ e);
  Ok (ratio (entry o a) (entry e a)).
