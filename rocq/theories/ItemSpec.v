(** What retrieving meters by key should do, in terms of the contents of a group. *)
From Verif Require Import Base ItemModel.
Open Scope Z_scope.

(** Two keys are the same up to the class of tuple. *)
Definition Same (x y : obj) : Prop := norm x = norm y.
Definition Member (x : obj) (l : list obj) : Prop := exists y, In y l /\ Same x y.
Definition SameSet (l l' : list obj) : Prop := forall x, Member x l <-> Member x l'.

Section Spec.
Context {app : Type}.

(** [x] is the first element of [l] that has the property [P]. *)
Definition First {A} (P : A -> Prop) (l : list A) (x : A) : Prop :=
  exists l1 l2, l = l1 ++ x :: l2 /\ P x /\ forall y, In y l1 -> ~ P y.

(** [l'] lists the elements of [l] that have the property [P], in order. *)
Inductive Filtered {A} (P : A -> Prop) : list A -> list A -> Prop :=
  | Filtered_nil : Filtered P [] []
  | Filtered_keep x l l' : P x -> Filtered P l l' -> Filtered P (x :: l) (x :: l')
  | Filtered_drop x l l' : ~ P x -> Filtered P l l' -> Filtered P (x :: l) l'.

(** The meters in a meter or group, at any depth. *)
Fixpoint leaves (x : node app) : list (node app) :=
  match x with Meter _ _ _ _ _ => [x] | Grp ms => concat (map leaves ms) end.

(** Some meter of [x], or all of it (with no empty group), is in the building / data set. *)
Definition meter_in (b d : obj) (x : node app) : Prop :=
  match x with Meter _ b' d' _ _ => Same b' b /\ Same d' d | Grp _ => False end.
Definition touches (b d : obj) (x : node app) : Prop := exists m, In m (leaves x) /\ meter_in b d m.
Definition has_site (x : node app) : Prop := exists i b d apps, In (Meter i b d true apps) (leaves x).
Inductive within_building (b : obj) : node app -> Prop :=
  | WB_meter i b' d s apps : Same b b' -> within_building b (Meter i b' d s apps)
  | WB_group ms : ms <> [] -> Forall (within_building b) ms -> within_building b (Grp ms).
Inductive within_dataset (d : obj) : node app -> Prop :=
  | WD_meter i b d' s apps : Same d d' -> within_dataset d (Meter i b d' s apps)
  | WD_group ms : ms <> [] -> Forall (within_dataset d) ms -> within_dataset d (Grp ms).

(** Nested groups. *)
Definition group_of_ids (l : list obj) (x : node app) : Prop :=
  exists ms, x = Grp ms /\ SameSet (map ident ms) l.
Definition group_of_instances (l : list obj) (b d : obj) (x : node app) : Prop :=
  exists ms, x = Grp ms /\ SameSet (map instance ms) l /\ within_building b x /\ within_dataset d x.

(** Meters with a number as instance. *)
Definition numbered (x : node app) : Prop := match x with Meter (Int _) _ _ _ _ => True | _ => False end.
Definition has_number (k : Z) (x : node app) : bool := match x with Meter (Int n) _ _ _ _ => n =? k | _ => false end.
(** No groups inside the groups of the group. *)
Definition shallow (x : node app) : Prop := match x with Meter _ _ _ _ _ => True | Grp ms => Forall (fun y => is_group y = false) ms end.
(** An instance that is the number [k], or a tuple of which [k] is an item. *)
Definition mentions (k : Z) (x : node app) : Prop :=
  match x with Meter i _ _ _ _ => Same i (Int k) \/ exists l, (i = Tup l \/ i = Lst l) /\ Member (Int k) l | Grp _ => False end.

(** What a lookup by number sees: the meters of the group and those directly in its groups. *)
Definition seen (k : Z) (x : node app) : Prop :=
  mentions k x \/ exists ms y, x = Grp ms /\ In y ms /\ Same (instance y) (Int k).

(** Some appliance on a meter of [x] matches the query. *)
Definition attached (a : app) (x : node app) : Prop := exists i b d s apps, In (Meter i b d s apps) (leaves x) /\ In a apps.
Definition feeds (matches : app -> list (nat * obj) -> res bool) (q : list (nat * obj)) (x : node app) : Prop :=
  exists a, attached a x /\ matches a q = Ok true.

(** The appliance that a key describes: a name is short for its first instance. *)
Definition described (key : obj) : option (list (nat * obj)) :=
  match key with
  | Str s => Some [(type_key, Str s); (instance_key, Int 1)]
  | Tup [Str s; n] => Some [(type_key, Str s); (instance_key, n)]
  | Dict q => Some q
  | _ => None
  end.

(** Keys of no documented form. *)
Definition malformed (key : obj) : Prop :=
  match key with
  | Bool _ | Thing _ => True
  | Tup l => length l <> 2%nat /\ length l <> 3%nat
  | Lst l => exists x, In x l /\ is_tuple x = false
  | _ => False
  end.

(** Ordinary identifiers: of a meter with a number other than 0, or of a group of such. *)
Inductive ordinary : obj -> Prop :=
  | Ord_meter n b d : n <> 0 -> ordinary (MeterID (Int n) b d)
  | Ord_group l : Forall ordinary l -> ordinary (GroupID l).
(** The meters that an identifier asks for, and those in a result. *)
Fixpoint asked (x : obj) : list obj :=
  match x with MeterID _ _ _ => [x] | GroupID l => concat (map asked l) | _ => [] end.
Fixpoint delivered (f : found app) : list obj :=
  match f with One x => map ident (leaves x) | Nothing => [] | New l => concat (map delivered l) end.
End Spec.
