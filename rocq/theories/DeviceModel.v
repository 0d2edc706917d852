(** Model of the descriptions of meter devices, which all data sets opened in a
    process share (nilmtk/elecmeter.py:42-48, 137-169, 245-286, 425-437, 618-634),
    and of the places that fill them (nilmtk/dataset.py:45-68,
    nilmtk/building.py:26-33, nilmtk/metergroup.py:66-136).

    Simplifications:
    - names of device models are numbers; a device is its sample period, maximum
      sample period, measurements and whether it has any other entry;
    - a data set is what its store holds: the root metadata, or the exception from
      reading them, and its buildings in the order of opening; a building is the
      exception from reading its metadata, or its meters and the exception that
      importing its meters and appliances raises, if any. *)
From Verif Require Import Base TimeFrameModel StoreModel ResultsModel GoodSectionsModel ResampleModel.
Import List. Open Scope list_scope. Open Scope Z_scope.

(** A MeterDevice dictionary. *)
Record device := mkDevice {
  d_sample_period : option Z;
  d_max_sample_period : option Z;
  d_measurements : option (list (Z * option Z));     (* physical quantity and type *)
  d_other : bool }.
(** [if device:] an empty dictionary counts as false. *)
Definition d_empty (d : device) : bool :=
  match d with mkDevice None None None false => true | _ => false end.

(** [ElecMeter.meter_devices], elecmeter.py:48. *)
Definition registry := list (nat * device).
Fixpoint find_model (k : nat) (l : registry) : option device :=
  match l with [] => None | (k', d) :: r => if Nat.eqb k k' then Some d else find_model k r end.
Fixpoint set_model (k : nat) (d : device) (l : registry) : registry :=
  match l with
  | [] => [(k, d)]
  | (k', x) :: r => if Nat.eqb k k' then (k', d) :: r else (k', x) :: set_model k d r
  end.
(** [dict.update] *)
Definition update_models (new : registry) (l : registry) : registry := fold_left (fun l p => set_model (fst p) (snd p) l) new l.

(** The metadata of a meter: 'device_model' ([None]: no entry, or an empty one). *)
Record meter := mkMeter { m_instance : Z; m_model : option nat }.
Record house := mkHouse { h_meters : list meter; h_fails : option exn }.
Record dataset := mkDataset { ds_devices : option registry; ds_buildings : list (res house) }.

(** elecmeter.py:137-141, [load_meter_devices]. *)
Definition load_meter_devices (ds : dataset) (reg : registry) : registry :=
  update_models (match ds_devices ds with Some l => l | None => [] end) reg.

(** dataset.py:60-68 with building.py:26-33 and metergroup.py:66-136: the buildings
    one after the other; the devices are loaded for each before its meters are made.
    The result: the meters of the buildings opened completely, and the exception. *)
Fixpoint open_buildings (ds : dataset) (bs : list (res house)) (reg : registry) : registry * list meter * option exn :=
  match bs with
  | [] => (reg, [], None)
  | Err e :: _ => (reg, [], Some e)
  | Ok h :: bs =>
      let reg := load_meter_devices ds reg in
      match h_fails h with
      | Some e => (reg, [], Some e)
      | None => let '(reg, ms, e) := open_buildings ds bs reg in (reg, h_meters h ++ ms, e)
      end
  end.
(** dataset.py:49-58, [DataSet.import_metadata]. *)
Definition open_dataset (d : res dataset) (reg : registry) : registry * list meter * option exn :=
  match d with Err e => (reg, [], Some e) | Ok ds => open_buildings ds (ds_buildings ds) reg end.

(** A process that opens data sets one after the other. *)
Definition process (h : list (res dataset)) : registry := fold_left (fun reg d => fst (fst (open_dataset d reg))) h [].

(** elecmeter.py:153-164, [device]. *)
Definition device_of (reg : registry) (m : meter) : res device :=
  match m_model m with
  | Some k => match find_model k reg with Some d => Ok d | None => Err KeyError end
  | None => Ok (mkDevice None None None false)
  end.
Definition item {A} (x : option A) : res A := match x with Some a => Ok a | None => Err KeyError end.

(** elecmeter.py:166-169, [sample_period]. *)
Definition sample_period (reg : registry) (m : meter) : res (option Z) :=
  do d <- device_of reg m;
  if d_empty d then Ok None else do p <- item (d_sample_period d); Ok (Some p).
(** elecmeter.py:278-286, [available_columns] (a set, here the list it is made of). *)
Definition available_columns (reg : registry) (m : meter) : res (list (Z * option Z)) :=
  do d <- device_of reg m; item (d_measurements d).
(** elecmeter.py:425-437: how many readings [load] fills in after one. *)
Definition fill_limit (reg : registry) (m : meter) (period : option Z) : res nat :=
  do own <- sample_period reg m;
  do d <- device_of reg m;
  do mx <- item (d_max_sample_period d);
  match (match period with Some p => Some p | None => own end) with
  | None => Err TypeError
  | Some p => if p =? 0 then Err ZeroDivisionError else Ok (ffill_limit mx p)
  end.
(** elecmeter.py:618-634, [good_sections] of the chunks a store delivers, when none
    are cached. *)
Definition good_sections (reg : registry) (m : meter) (chunks : gen (chunk bool)) : res (list tf) :=
  do d <- device_of reg m; do mx <- item (d_max_sample_period d); good_sections_of mx chunks.
