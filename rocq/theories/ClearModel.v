(** Model of clearing the cache of statistics: nilmtk/elecmeter.py (clear_cache,
    get_cached_stat), nilmtk/metergroup.py and nilmtk/dataset.py (clear_cache); the cache is
    an HDF5 file (nilmtk/__init__.py:23), as in RemoveModel, and its keys are those of
    CacheModel.

    Simplifications: a row of a cached table is a time and any value; the replacement of a
    table that has other columns (elecmeter.py:724-727) is left out, so that statistics are
    only appended (line 723). *)
From Coq Require Import Ascii String.
From Verif Require Import Base TimeFrameModel StoreModel KeyModel ConvModel RemoveModel CacheModel.
Import List.
Open Scope list_scope.

(** A meter, or a group with its meters and its disabled meters (metergroup.py:54-57); a
    group can have groups as members. *)
Inductive member := Meter (m : meter_id) | Group (meters disabled : list member).

Section Clear.
Context {A : Type}.

(** elecmeter.py:795-811, [ElecMeter.clear_cache]: a KeyError is caught. *)
Definition clear_meter (m : meter_id) (root : node A) : node A * option exn :=
  match hdf_remove (key_for_cached_stat m []) root with
  | (root', None) => (root', None)
  | (root', Some KeyError) => (root', None)
  | (root', Some e) => (root', Some e)
  end.

(** metergroup.py:1674-1677, [MeterGroup.clear_cache]. *)
Fixpoint clear_cache (x : member) (root : node A) : node A * option exn :=
  match x with
  | Meter m => clear_meter m root
  | Group meters _ =>
      (fix go (l : list member) (root : node A) : node A * option exn :=
         match l with
         | [] => (root, None)
         | y :: r => match clear_cache y root with
                     | (root', None) => go r root'
                     | (root', Some e) => (root', Some e)
                     end
         end) meters root
  end.

(** dataset.py:139-144, [DataSet.elecs] and [DataSet.clear_cache]: [elecs] are the groups of
    the buildings. *)
Fixpoint dataset_clear_cache (elecs : list member) (root : node A) : node A * option exn :=
  match elecs with
  | [] => (root, None)
  | x :: r => match clear_cache x root with
              | (root', None) => dataset_clear_cache r root'
              | (root', Some e) => (root', Some e)
              end
  end.

(** elecmeter.py:813-835, [get_cached_stat]: no rows if there is no table. *)
Definition get_cached_stat (m : meter_id) (stat : str) (root : node A) : list (sample A) :=
  match get_node root (key_for_cached_stat m stat) with
  | None => []
  | Some n => match n_table n with Some rows => rows | None => [] end
  end.

(** What happens to the cache: statistics stored (elecmeter.py:721-723), the cache cleared
    for a meter or group, or for a data set. *)
Inductive op := Store (m : meter_id) (stat : str) (rows : list (sample A)) | Clear (x : member) | ClearAll (elecs : list member).
Definition step (o : op) (root : node A) : node A * option exn :=
  match o with
  | Store m stat rows => (hdf_append (key_for_cached_stat m stat) rows root, None)
  | Clear x => clear_cache x root
  | ClearAll elecs => dataset_clear_cache elecs root
  end.
Definition run (h : list op) (root : node A) : node A := fold_left (fun r o => fst (step o r)) h root.
End Clear.
Arguments op : clear implicits.
