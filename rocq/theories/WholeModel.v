(** Model of the statistics of a meter asked for without naming any period
    (nilmtk/elecmeter.py:581-634, 675-682): total_energy, dropout_rate with
    [ignore_gaps=False] and good_sections, on the HDF store, without a cache. *)
From Coq Require Import QArith.
From Verif Require Import Base TimeFrameModel StoreModel ResultsModel GoodSectionsModel EnergyModel.
Open Scope Z_scope.

(** elecmeter.py:675-682 and 92-94 (get_timeframe): [sections is None]; the
    frame of the table inside the window, with its end included, unless it is
    empty. *)
Definition stat_sections {A} (rows : list (sample A)) (window : tf) : res (list tf) :=
  do t <- hdf_get_timeframe rows window;
  Ok (filter (fun s => negb (tf_empty s)) [set_incl t true]).

(** elecmeter.py:581-595, [total_energy()]: the entry of an AC type in the Series
    returned by results.py:33-40, [combined]; [Ok None] if it has none.  The
    Clip node is left out (see ClipModel). *)
Definition whole_energy (columns : list column) (msp : Z) (a : actype) (rows : list (sample (list (option Z)))) (window : tf) (csize : nat)
  : res (option Z) :=
  do sections <- stat_sections rows window;
  do data <- energy_process columns msp (hdf_load rows window sections 0 csize);
  Ok (if has_col (en_get a) data then Some (osum (map (fun r => en_get a (r_val r)) data)) else None).

(** dropoutrate.py:13-22, [process] run to exhaustion on a new node. *)
Definition dropout_process {A} (period : Z) (chunks : gen (chunk A)) : res (table dropout) :=
  do data <- foldM (fun d ch => do r <- get_dropout_rate (map fst (c_rows ch)) period;
                                results_append d (c_tf ch) (mkDrop r (Z.of_nat (length (c_rows ch)))))
                   (fst chunks) [];
  match snd chunks with Some e => Err e | None => Ok data end.

(** elecmeter.py:597-616, [dropout_rate(ignore_gaps=False)]. *)
Definition whole_dropout {A} (period : Z) (rows : list (sample A)) (window : tf) (csize : nat) : res Q :=
  do sections <- stat_sections rows window;
  do data <- dropout_process period (hdf_load rows window sections 0 csize);
  dropout_simple data.

(** elecmeter.py:618-634, [good_sections()]: ten look-ahead rows. *)
Definition whole_good (msp : Z) (rows : list (sample bool)) (window : tf) (csize : nat) : res (list tf) :=
  do sections <- stat_sections rows window;
  good_sections_of msp (hdf_load rows window sections 10 csize).
