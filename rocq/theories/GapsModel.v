(** Model of statistics of the good sections of a meter (nilmtk/elecmeter.py:581-634,
    675-682): [dropout_rate()], which leaves gaps out by default, and
    [total_energy(sections=meter.good_sections())], on the HDF store, without a
    cache.  The sections are in order and different, so that making a set of them
    and sorting it (elecmeter.py:690-695) changes nothing. *)
From Coq Require Import QArith.
From Verif Require Import Base TimeFrameModel StoreModel ResultsModel GoodSectionsModel EnergyModel WholeModel.
Import List. Open Scope Z_scope.

(** goodsections.py:96, [df.dropna()]: which rows have no missing value; [v] says so of
    the readings of a row. *)
Definition validity {A} (v : A -> bool) (rows : list (sample A)) : list (sample bool) := map (fun r => (fst r, v (snd r))) rows.

(** elecmeter.py:682. *)
Definition nonempty (sections : list tf) : list tf := filter (fun s => negb (tf_empty s)) sections.

(** elecmeter.py:597-616, [dropout_rate(ignore_gaps=True)]. *)
Definition dropout_ignoring_gaps {A} (v : A -> bool) (msp period : Z) (rows : list (sample A)) (window : tf) (csize : nat) : res Q :=
  do good <- whole_good msp (validity v rows) window csize;
  do data <- dropout_process period (hdf_load rows window (nonempty good) 0 csize);
  dropout_simple data.

(** elecmeter.py:581-595, [total_energy(sections=meter.good_sections())]: the entry of
    an AC type. *)
Definition present_all (l : list (option Z)) : bool := forallb (fun o => match o with Some _ => true | None => false end) l.
Definition energy_in_good_sections (columns : list column) (msp : Z) (a : actype) (rows : list (sample (list (option Z)))) (window : tf) (csize : nat)
  : res (option Z) :=
  do good <- whole_good msp (validity present_all rows) window csize;
  do data <- energy_process columns msp (hdf_load rows window (nonempty good) 0 csize);
  Ok (if has_col (en_get a) data then Some (osum (map (fun r => en_get a (r_val r)) data)) else None).
