(** Vocabulary for the import of a building's metadata. *)
From Verif Require Import Base GroupModel ImportModel.
Open Scope nat_scope.

(** The instances of the meters inside a meter or group, at any depth. *)
Fixpoint instances (x : node) : list nat :=
  match x with Leaf i _ _ _ => [i] | Group _ ms _ => flat_map instances ms end.

(** The declared meters with instance [i]. *)
Definition declared (b d : nat) (elec : list meter_md) (i : nat) : list node :=
  flat_map (fun m => if Nat.eqb (md_instance m) i then [Leaf i b d (md_site m)] else []) elec.

(** The meter lists of the appliances that need a group: those that do not have
    exactly one meter. *)
Definition needs_group (a : appliance_md) : list (list nat) :=
  match a with Some is => if Nat.eqb (length is) 1 then [] else [is] | None => [] end.
Definition group_lists (appliances : list appliance_md) : list (list nat) := flat_map needs_group appliances.
Definition grouped (appliances : list appliance_md) (i : nat) : bool :=
  existsb (fun is => existsb (Nat.eqb i) is) (group_lists appliances).

(** No appliance is said to be on meter 0, which stands for the mains. *)
Definition declares (a : appliance_md) (i : nat) : Prop := exists is, a = Some is /\ In i is.
Definition no_mains (appliances : list appliance_md) : Prop := Forall (fun a => ~ declares a 0) appliances.

(** The numbers of the appliances on meter [i], in the order in which they were attached. *)
Definition appliances_of (s : imported) (i : nat) : list nat :=
  map snd (filter (fun p => Nat.eqb (fst p) i) (i_attached s)).
Definition declaresb (a : appliance_md) (i : nat) : bool :=
  match a with Some is => existsb (Nat.eqb i) is | None => false end.

(** The metadata are consistent: every appliance says which meters it has, they are declared, an
    appliance that needs a group names no meter twice, and none of an appliance's
    meters is in the group of an appliance before it. *)
Definition consistent (elec : list meter_md) (appliances : list appliance_md) : Prop :=
  forall k a, nth_error appliances k = Some a ->
    exists is, a = Some is /\ incl is (map md_instance elec) /\ (length is <> 1 -> NoDup is) /\
      forall j is', j < k -> nth_error appliances j = Some (Some is') -> length is' <> 1 -> forall i, In i is -> ~ In i is'.
