(** Model of when the appliances of a meter count as on
    (nilmtk/appliance.py:58-70, nilmtk/electric.py:32-85, 221-224, 780-827,
    984-991).

    Thresholds, durations and powers are integers.  The metadata of appliance
    types ([Appliance.appliance_types], appliance.py:50-52) are a partial function from
    type names (numbered) to what the metadata of the type say. *)
From Verif Require Import Base ActivationsModel.
Open Scope nat_scope.

Record atype := { ty_threshold : option Z; ty_min_on : option Z; ty_min_off : option Z }.

(** [a_nominal] is [metadata['nominal_consumption']] if there is one, and in
    it ['on_power'] if there is one. *)
Record appliance := { a_type : nat; a_threshold : option Z; a_nominal : option (option Z) }.

(** appliance.py:48-52, the property [type]. *)
Definition type_of (types : nat -> option atype) (a : appliance) : res atype :=
  match types (a_type a) with Some ty => Ok ty | None => Err KeyError end.

(** appliance.py:20, DEFAULT_ON_POWER_THRESHOLD. *)
Definition default_threshold : Z := 10%Z.

(** appliance.py:58-70, [Appliance.on_power_threshold]. *)
Definition appliance_threshold (types : nat -> option atype) (a : appliance) : res Z :=
  match a_threshold a with
  | Some t => Ok t
  | None =>
      match a_nominal a with
      | Some (Some t) => Ok t
      | _ =>
          do ty <- type_of types a;
          Ok (match ty_threshold ty with Some t => t | None => default_threshold end)
      end
  end.

(** [min(list)], [np.max(list)] *)
Fixpoint least (x : Z) (l : list Z) : Z := match l with [] => x | y :: r => least (if (y <? x)%Z then y else x) r end.
Fixpoint greatest (x : Z) (l : list Z) : Z := match l with [] => x | y :: r => greatest (if (x <? y)%Z then y else x) r end.

(** electric.py:55-62, [Electric.on_power_threshold]. *)
Definition meter_threshold (types : nat -> option atype) (appliances : list appliance) : res Z :=
  match appliances with
  | [] => Ok default_threshold
  | _ =>
      do l <- mapM (appliance_threshold types) appliances;
      match l with [] => Err ValueError | x :: r => Ok (least x r) end
  end.

(** electric.py:70-85, [_aggregate_metadata_attribute] with its defaults. *)
Definition longest (attr : atype -> option Z) (types : nat -> option atype) (appliances : list appliance) : res Z :=
  do l <- mapM (fun a => do ty <- type_of types a; Ok (match attr ty with Some v => [v] | None => [] end)) appliances;
  match concat l with [] => Ok 0%Z | x :: r => Ok (greatest x r) end.
(** electric.py:64-68. *)
Definition min_on_duration := longest ty_min_on.
Definition min_off_duration := longest ty_min_off.

(** [x if x is not None else default()] *)
Definition or_default (given : option Z) (default : res Z) : res Z := match given with Some v => Ok v | None => default end.

(** electric.py:32-53, [Electric.when_on]: the chunks yielded, and the
    exception that ends the generator, if any.  ([power_series] is given by
    the chunks it yields.) *)
Definition when_on (types : nat -> option atype) (appliances : list appliance) (given : option Z) (chunks : list (list sample)) : gen (list (Z * bool)) :=
  match or_default given (meter_threshold types appliances) with
  | Err e => ([], Some e)
  | Ok threshold => (map (map (fun s => (fst s, is_on threshold s))) chunks, None)
  end.

(** electric.py:808-827, [Electric.get_activations]. *)
Definition meter_activations (types : nat -> option atype) (appliances : list appliance) (min_off min_on : option Z) (border : nat)
    (threshold : option Z) (chunks : list (list sample)) : res (list (list sample)) :=
  do threshold <- or_default threshold (meter_threshold types appliances);
  do min_off <- or_default min_off (min_off_duration types appliances);
  do min_on <- or_default min_on (min_on_duration types appliances);
  do l <- mapM (fun c => get_activations c min_off min_on border threshold) chunks;
  Ok (concat l).

(** electric.py:221-224 and 984-991, [vampire_power]: [series] is what
    [power_series_all_data] returns (None without data); [Series.min] leaves
    NaN out and is NaN ([None]) if nothing is left. *)
Definition vampire_power (series : option (list sample)) : res (option Z) :=
  match series with
  | None => Err AttributeError
  | Some l =>
      match concat (map (fun s => match snd s with Some v => [v] | None => [] end) l) with
      | [] => Ok None
      | x :: r => Ok (Some (least x r))
      end
  end.
