(** Vocabulary for grouping meters by their appliances (C59). *)
From Verif Require Import Base MatchModel MatchSpec ByModel.
Open Scope nat_scope.

(** Listing a set: each member once. *)
Definition lists_sets (setlist : list nat -> list nat) : Prop := forall l, NoDup (setlist l) /\ forall x, In x (setlist l) <-> In x l.

(** The dominant appliance of a meter: the only one; or the first one marked; or
    the first one if none is marked. *)
Inductive is_dominant (dominant : appliance -> bool) (m : meter) (a : appliance) : Prop :=
  | dom_only : m_appliances m = [a] -> is_dominant dominant m a
  | dom_marked l r : (1 < length (m_appliances m)) -> m_appliances m = l ++ a :: r -> dominant a = true -> Forall (fun b => dominant b = false) l -> is_dominant dominant m a
  | dom_first r : Forall (fun b => dominant b = false) (m_appliances m) -> m_appliances m = a :: r -> is_dominant dominant m a.

(** The appliance or its type gives [v], or a list with [v], for [k]. *)
Definition gives (types : value -> option app_type) (a : appliance) (k : name) (v : nat) : Prop :=
  exists t x w, get TypeN (a_metadata a) = Some t /\ types t = Some x /\
    (get k (a_metadata a) = Some w \/ get k (t_attrs x) = Some w) /\ value_covers w (Atom v).
