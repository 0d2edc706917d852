(** Model of the set operations on meter groups (nilmtk/metergroup.py:40-64, 138-147,
    477-486, 545-572, 777-840, nilmtk/hashable.py, nilmtk/utils.py:146-153). *)
From Verif Require Import Base.
Open Scope nat_scope.

(** An ElecMeter, given by its identifier (instance, building, dataset) and whether its
    metadata say it is a site meter, or a MeterGroup (name, meters, disabled
    meters).  Names and identifiers are numbers; instances that are tuples
    are left out. *)
Inductive node :=
  | Leaf (instance building dataset : nat) (site : bool)
  | Group (name : nat) (meters disabled : list node).

(** hashable.py:15 and metergroup.py:59-64, [__hash__].  Hashes of different keys are
    taken to be different: the hash of a meter is its identifier, that of a group its
    name and the hashes of its meters and disabled meters, in order. *)
Inductive hkey := HLeaf (instance building dataset : nat) | HGroup (name : nat) (meters disabled : list hkey).
Fixpoint hash (x : node) : hkey :=
  match x with
  | Leaf i b d _ => HLeaf i b d
  | Group n ms ds => HGroup n (map hash ms) (map hash ds)
  end.
Fixpoint hkey_eqb (x y : hkey) {struct x} : bool :=
  let fix all (l l' : list hkey) {struct l} : bool :=
    match l, l' with
    | [], [] => true
    | a :: l1, a' :: l1' => hkey_eqb a a' && all l1 l1'
    | _, _ => false
    end in
  match x, y with
  | HLeaf i b d, HLeaf i' b' d' => Nat.eqb i i' && Nat.eqb b b' && Nat.eqb d d'
  | HGroup n ms ds, HGroup n' ms' ds' => Nat.eqb n n' && all ms ms' && all ds ds'
  | _, _ => false
  end.

(** A Python set of nodes: an element is dropped if an element with the same hash
    that is equal to it is already there.  Nodes with the same hash are equal (see
    [GroupProofs.hash_eq]), so only the hashes are compared here. *)
Fixpoint py_set_onto (seen : list node) (l : list node) : list node :=
  match l with
  | [] => seen
  | x :: l' => py_set_onto (if existsb (fun y => hkey_eqb (hash x) (hash y)) seen then seen else seen ++ [x]) l'
  end.
Definition py_set (l : list node) : list node := py_set_onto [] l.
Definition in_set (x : node) (s : list node) : bool := existsb (fun y => hkey_eqb (hash x) (hash y)) s.

(** hashable.py:6-10 and metergroup.py:477-481, [__eq__]: meters with the same
    identifier; groups with the same set of meters. *)
Definition node_eq (x y : node) : bool :=
  match x, y with
  | Leaf i b d _, Leaf i' b' d' _ => Nat.eqb i i' && Nat.eqb b b' && Nat.eqb d d'
  | Group _ ms _, Group _ ms' _ =>
      let s := py_set ms in let s' := py_set ms' in
      Nat.eqb (length s) (length s') && forallb (fun x => in_set x s') s
  | _, _ => false
  end.

(** elecmeter.py:is_site_meter, metergroup.py:838-840. *)
Fixpoint is_site (x : node) : bool :=
  match x with Leaf _ _ _ s => s | Group _ ms _ => existsb is_site ms end.

(** metergroup.py:553-567 with utils.py:146-153, [building] and
    [contains_meters_from_multiple_buildings]: no building at all, one, or a
    tuple of several values (among which None counts).  Only whether there
    is more than one value matters, so the tuples are not kept: a nested
    group with several buildings makes the whole group have several. *)
Inductive bval := BNone | BOne (b : nat) | BMany.
Definition bval_dec : forall x y : bval, {x = y} + {x <> y}.
Proof. decide equality. apply Nat.eq_dec. Defined.
Definition simplest (l : list bval) : bval :=
  if existsb (fun v => if bval_dec v BMany then true else false) l then BMany
  else match nodup bval_dec l with [] => BNone | [v] => v | _ => BMany end.
Fixpoint building (x : node) : bval :=
  match x with Leaf _ b _ _ => BOne b | Group _ ms _ => simplest (map building ms) end.

(** The meters and disabled meters of a MeterGroup. *)
Record group := mkGroup { g_meters : list node; g_disabled : list node }.
Definition several_buildings (g : group) : bool :=
  match simplest (map building (g_meters g)) with BMany => true | _ => false end.

(** metergroup.py:777-796: [None], the only site meter, or a new group (name
    "", which is number 0). *)
Inductive mains_result := NoMains | OneMains (x : node) | MainsGroup (x : list node).
Definition mains (g : group) : res mains_result :=
  if several_buildings g then Err RuntimeError
  else Ok (match filter is_site (g_meters g) with [] => NoMains | [x] => OneMains x | l => MainsGroup l end).

(** metergroup.py:832-836. *)
Definition submeters (g : group) : group := mkGroup (filter (fun x => negb (is_site x)) (g_meters g)) [].

(** list.remove(x): the first equal element; ValueError if there is none. *)
Fixpoint remove_node (x : node) (l : list node) : res (list node) :=
  match l with
  | [] => Err ValueError
  | y :: l' => if node_eq y x then Ok l' else do r <- remove_node x l'; Ok (y :: r)
  end.

(** metergroup.py:798-812.  The loops run over lists computed beforehand. *)
Definition disable (g : group) (x : node) : res group :=
  do ms <- remove_node x (g_meters g); Ok (mkGroup ms (g_disabled g ++ [x])).
Definition enable (g : group) (x : node) : res group :=
  do ds <- remove_node x (g_disabled g); Ok (mkGroup (g_meters g ++ [x]) ds).
Definition use_alternative_mains (g : group) : res group :=
  let present := filter is_site (g_meters g) in
  let alternative := filter is_site (g_disabled g) in
  match alternative with
  | [] => Err RuntimeError
  | _ => do g1 <- foldM disable present g; foldM enable alternative g1
  end.

(** metergroup.py:138-147, [union]; TypeError if [other] is not a group.  [order] is the
    order in which Python lists a set. *)
Inductive operand := GroupArg (g : group) | OtherArg.
Definition union (order : list node -> list node) (g : group) (other : operand) : res group :=
  match other with
  | OtherArg => Err TypeError
  | GroupArg g' => Ok (mkGroup (order (py_set (g_meters g ++ g_meters g'))) [])
  end.
