(** Model of the appliances of groups: dominant_appliance of a meter
    (nilmtk/elecmeter.py:174-192), dominant_appliance, dominant_appliances,
    values_for_appliance_metadata_key and groupby of a group
    (nilmtk/metergroup.py:149-167, 493-522, 1355-1373).

    [dominant] tells whether the metadata of an appliance have a true
    'dominant_appliance'.  Appliances in a Python set are compared by identifier; here
    [a_metadata] (which has the type and the instance) stands for it.  [setlist] is
    the order in which Python lists a set. *)
From Verif Require Import Base MatchModel.
Open Scope nat_scope.

(** elecmeter.py:174-192; [None] for a meter without appliances. *)
Definition dominant_appliance (dominant : appliance -> bool) (m : meter) : option appliance :=
  match m_appliances m with
  | [] => None
  | [a] => Some a
  | a :: _ => match find dominant (m_appliances m) with Some b => Some b | None => Some a end
  end.

(** metergroup.py:149-167, [MeterGroup.dominant_appliance] of a group of meters;
    [app_eqb] compares identifiers. *)
Definition opt_eqb (app_eqb : appliance -> appliance -> bool) (x y : option appliance) : bool :=
  match x, y with Some a, Some b => app_eqb a b | None, None => true | _, _ => false end.
Definition add_distinct (app_eqb : appliance -> appliance -> bool) (l : list (option appliance)) (x : option appliance) : list (option appliance) :=
  if existsb (opt_eqb app_eqb x) l then l else l ++ [x].
Definition group_dominant (app_eqb : appliance -> appliance -> bool) (dominant : appliance -> bool) (g : list meter) : res (option appliance) :=
  match fold_left (add_distinct app_eqb) (map (dominant_appliance dominant) g) [] with
  | [] => Ok None
  | [x] => Ok x
  | _ => Err RuntimeError
  end.

(** utils.py:347-353, [append_or_extend_list]. *)
Definition extend (x : option value) : list nat :=
  match x with None => [] | Some (ListV l) => l | Some (Atom n) => [n] end.

(** metergroup.py:515-521: the values of one appliance; [None] has no attribute
    'metadata'.  Which appliance raises first depends on the order of a set; here
    the order of the meters. *)
Definition appliance_values (types : value -> option app_type) (k : name) (a : option appliance) : res (list nat) :=
  match a with
  | None => Err AttributeError
  | Some a => do t <- type_of types a; Ok (extend (get k (a_metadata a)) ++ extend (get k (t_attrs t)))
  end.
Definition values_for_key (types : value -> option app_type) (setlist : list nat -> list nat) (dominant : appliance -> bool) (k : name) (g : list meter) : res (list nat) :=
  do vs <- mapM (fun m => appliance_values types k (dominant_appliance dominant m)) g;
  Ok (setlist (concat vs)).

(** metergroup.py:1355-1373, [groupby]: named groups. *)
Definition groupby (types : value -> option app_type) (syn : bool) (setlist : list nat -> list nat) (dominant : appliance -> bool) (k : name) (g : list meter)
  : res (list (nat * list meter)) :=
  do vs <- values_for_key types setlist dominant k g;
  mapM (fun v => do l <- select (matches_appliances types syn) g [(k, Atom v)]; Ok (v, l)) vs.
