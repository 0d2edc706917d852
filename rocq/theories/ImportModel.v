(** Model of how a building's metadata become meters, nested groups and attached
    appliances (nilmtk/metergroup.py:66-136, the parts of 172-228 and 298-383 it uses,
    nilmtk/building.py:25-31). *)
From Verif Require Import Base GroupModel.
Open Scope nat_scope.

(** The metadata of one meter: its instance (the key in the dictionary
    'elec_meters'), 'site_meter' and 'disabled'.  Of an appliance: its 'meters', [None] if
    there is no such key.  Other metadata do not matter here; the assertions on the types of the
    arguments are met. *)
Record meter_md := mkMd { md_instance : nat; md_site : bool; md_disabled : bool }.
Definition appliance_md := option (list nat).

(** The group being filled and the appliances appended to the meters, as pairs
    (instance of the meter, number of the appliance in the list): the objects are
    mutable and shared, and the instances identify the meters. *)
Record imported := mkImp { i_meters : list node; i_disabled : list node; i_attached : list (nat * nat) }.

(** metergroup.py:298-302 and elecmeter.py:308-345, [matches] with the building and the data
    set: a meter by its identifier, a group if any of its meters. *)
Fixpoint in_building (b d : nat) (x : node) : bool :=
  match x with
  | Leaf _ b' d' _ => Nat.eqb b' b && Nat.eqb d' d
  | Group _ ms _ => existsb (in_building b d) ms
  end.

(** metergroup.py:205-228, [self[ElecMeterID(i, b, d)]] for an instance that is a
    number.  Instance 0 means the mains: [select] (304-383) raises KeyError
    if nothing matches.  [None] is Python's None.  The identifier of a group is not an ElecMeterID, so
    groups are never found. *)
Definition is_meter (i b d : nat) (x : node) : bool :=
  match x with Leaf i' b' d' _ => Nat.eqb i' i && Nat.eqb b' b && Nat.eqb d' d | Group _ _ _ => false end.
Definition get_item (b d i : nat) (ms : list node) : res (option node) :=
  match i with
  | 0 =>
      match filter (in_building b d) ms with
      | [] => Err KeyError
      | sel => do r <- mains (mkGroup sel []);
          Ok (match r with NoMains => None | OneMains x => Some x | MainsGroup l => Some (Group 0 l []) end)
      end
  | S _ => match find (is_meter i b d) ms with Some x => Ok (Some x) | None => Err KeyError end
  end.

(** [meter.appliances.append(appliance)]: [appliances] of a group is a property that
    makes a new list each time (metergroup.py:487-492), so appending to it is lost. *)
Definition attach (a : nat) (att : list (nat * nat)) (x : node) : list (nat * nat) :=
  match x with Leaf i _ _ _ => att ++ [(i, a)] | Group _ _ _ => att end.

(** metergroup.py:119-125: one meter of an appliance with several. *)
Definition take_meter (a : nat) (s : imported) (x : option node) : res imported :=
  match x with
  | None => Err ValueError
  | Some x =>
      do ms <- remove_node x (i_meters s);
      Ok (mkImp ms (i_disabled s) (attach a (i_attached s) x))
  end.

(** metergroup.py:98-126: appliance number [a].  In the new group [None] cannot
    occur: removing it has failed before. *)
Definition add_appliance (b d : nat) (s : imported) (aa : nat * appliance_md) : res imported :=
  let '(a, md) := aa in
  match md with
  | None => Err KeyError
  | Some [i] =>
      do m <- get_item b d i (i_meters s);
      match m with
      | None => Err AttributeError
      | Some (Group _ ms _) => Ok (mkImp (i_meters s) (i_disabled s) (fold_left (attach a) ms (i_attached s)))
      | Some x => Ok (mkImp (i_meters s) (i_disabled s) (attach a (i_attached s) x))
      end
  | Some is =>
      do xs <- mapM (fun i => get_item b d i (i_meters s)) is;
      do s' <- foldM (take_meter a) xs s;
      Ok (mkImp (i_meters s' ++ [Group 0 (flat_map (fun x => match x with Some x => [x] | None => [] end) xs) []])
                (i_disabled s') (i_attached s'))
  end.

(** metergroup.py:128-136: [m.metadata.get('disabled')] is looked up by instance. *)
Definition is_disabled (elec : list meter_md) (x : node) : bool :=
  match x with
  | Leaf i _ _ _ => existsb (fun m => Nat.eqb (md_instance m) i && md_disabled m) elec
  | Group _ _ _ => false
  end.
Definition disable_meter (s : imported) (x : node) : res imported :=
  do ms <- remove_node x (i_meters s);
  Ok (mkImp ms (i_disabled s ++ [x]) (i_attached s)).

(** metergroup.py:66-136, [import_metadata] of building [b] of data set [d], on the new
    group of a new Building.  The warnings and the loading of the meter devices
    are left out; so is the registration in the global group. *)
Definition leaf_for (b d : nat) (m : meter_md) : node := Leaf (md_instance m) b d (md_site m).
Definition import_metadata (b d : nat) (elec : list meter_md) (appliances : list appliance_md) : res imported :=
  do s <- foldM (add_appliance b d) (combine (seq 0 (length appliances)) appliances) (mkImp (map (leaf_for b d) elec) [] []);
  foldM disable_meter (filter (is_disabled elec) (i_meters s)) s.
