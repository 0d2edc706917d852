(** Model of the path from raw files to a result: a store written by the REDD or the UK-DALE
    converter is opened and a meter in it is asked for its total energy
    (nilmtk/dataset_converters/redd/convert_redd.py and
    nilmtk/dataset_converters/ukdale/convert_ukdale.py, see RawModel;
    nilmtk/elecmeter.py:581-595, see WholeModel).

    The values of a row are one per column, [None] for an empty field; times and powers are
    integers (REDD's time stamps of channel files are).  That the meter of channel [c] in building [h] has the table
    under that key is what the metadata of the data sets say. *)
From Verif Require Import Base TimeFrameModel StoreModel EnergyModel WholeModel RawModel.
Import List. Open Scope Z_scope.

Definition type_of (a : RawModel.actype) : EnergyModel.actype :=
  match a with RawModel.Active => EnergyModel.Active | RawModel.Reactive => EnergyModel.Reactive | RawModel.Apparent => EnergyModel.Apparent end.
Definition column_of (m : RawModel.measurement) : column :=
  (match fst m with RawModel.Power => EnergyModel.Power | RawModel.Voltage => OtherQuantity 0 end, option_map type_of (snd m)).

(** elecmeter.py:581-595 on the table of a key; KeyError (hdfdatastore.py:73-87) if there
    is none. *)
Definition energy_of (s : RawModel.store (list (option Z))) (h c : Z) (msp : Z) (a : EnergyModel.actype) (window : tf) (csize : nat) : res (option Z) :=
  match get s (h, c) with
  | None => Err KeyError
  | Some (cols, l) => whole_energy (map column_of cols) msp a l window csize
  end.
