(** What a query about metadata means, key by key. *)
From Verif Require Import Base MatchModel.
From Coq Require Import Permutation.
Open Scope nat_scope.

(** A value in a description matches a queried value: equal, or a list having
    it as a member. *)
Definition value_covers (w v : value) : Prop := w = v \/ exists l n, w = ListV l /\ v = Atom n /\ In n l.

(** A meter: identifier first, then its own metadata, then its device. *)
Inductive meter_has (m : meter) : name -> value -> Prop :=
  | mh_instance v : m_instance m = v -> meter_has m InstanceN v
  | mh_building v : m_building m = v -> meter_has m BuildingN v
  | mh_dataset v : m_dataset m = v -> meter_has m DatasetN v
  | mh_metadata k v : k <> InstanceN -> k <> BuildingN -> k <> DatasetN -> (forall n, k <> Method n) -> get k (m_metadata m) = Some v -> meter_has m k v
  | mh_device k v d w : k <> InstanceN -> k <> BuildingN -> k <> DatasetN -> (forall n, k <> Method n) -> get k (m_metadata m) = None -> m_device m = Ok d -> get k d = Some w -> value_covers w v -> meter_has m k v.
(** The words a meter can be asked about. *)
Definition meter_knows (m : meter) (k : name) : Prop :=
  k = InstanceN \/ k = BuildingN \/ k = DatasetN \/ (exists n, k = Method n) \/ (exists v, get k (m_metadata m) = Some v) \/ (exists d v, m_device m = Ok d /\ get k d = Some v).

(** An appliance: type (with synonyms) and instance, then its own metadata, then
    what is known about its type. *)
Inductive app_has (types : value -> option app_type) (synonyms : bool) (a : appliance) : name -> value -> Prop :=
  | ah_type v : get TypeN (a_metadata a) = Some v -> app_has types synonyms a TypeN v
  | ah_synonym t x l n : synonyms = true -> get TypeN (a_metadata a) = Some t -> types t = Some x -> get SynonymsN (t_attrs x) = Some (ListV l) -> In n l -> app_has types synonyms a TypeN (Atom n)
  | ah_instance v : get InstanceN (a_metadata a) = Some v -> app_has types synonyms a InstanceN v
  | ah_metadata k v : k <> TypeN -> k <> InstanceN -> (forall n, k <> Method n) -> get k (a_metadata a) = Some v -> app_has types synonyms a k v
  | ah_category t x cs c n : get CategoryN (a_metadata a) = None -> get TypeN (a_metadata a) = Some t -> types t = Some x -> t_categories x = Some cs -> In c cs -> In n c -> app_has types synonyms a CategoryN (Atom n)
  | ah_attr k v t x w : k <> TypeN -> k <> InstanceN -> k <> CategoryN -> (forall n, k <> Method n) -> get k (a_metadata a) = None -> get TypeN (a_metadata a) = Some t -> types t = Some x -> get k (t_attrs x) = Some w -> value_covers w v -> app_has types synonyms a k v.

(** The same outcome, not counting which exception is raised. *)
Definition same_outcome (x y : res bool) : Prop := x = y \/ exists e e', x = Err e /\ y = Err e'.

(** The words an appliance can be asked about: the words of its own metadata, its
    instance, and, if its type is one of the known types, its type, the categories
    and the attributes of that type. *)
Inductive app_knows (types : value -> option app_type) (synonyms : bool) (a : appliance) : name -> Prop :=
  | ak_instance : app_knows types synonyms a InstanceN
  | ak_method n : app_knows types synonyms a (Method n)
  | ak_type_plain : synonyms = false -> app_knows types synonyms a TypeN
  | ak_type t x : get TypeN (a_metadata a) = Some t -> types t = Some x -> app_knows types synonyms a TypeN
  | ak_metadata k v : k <> TypeN -> get k (a_metadata a) = Some v -> app_knows types synonyms a k
  | ak_category t x cs : get TypeN (a_metadata a) = Some t -> types t = Some x -> t_categories x = Some cs -> app_knows types synonyms a CategoryN
  | ak_attr k t x w : k <> TypeN -> k <> CategoryN -> get TypeN (a_metadata a) = Some t -> types t = Some x -> get k (t_attrs x) = Some w -> app_knows types synonyms a k.
