(** Vocabulary for being on. *)
From Verif Require Import Base ActivationsModel OnModel.
Open Scope nat_scope.

(** The threshold of an appliance: its own; else the power its metadata give
    for being on; else the threshold of its type; else 10 watts. *)
Inductive has_threshold (types : nat -> option atype) (a : appliance) : Z -> Prop :=
  | own t : a_threshold a = Some t -> has_threshold types a t
  | nominal t : a_threshold a = None -> a_nominal a = Some (Some t) -> has_threshold types a t
  | from_type ty t : a_threshold a = None -> (forall t, a_nominal a <> Some (Some t)) -> types (a_type a) = Some ty -> ty_threshold ty = Some t -> has_threshold types a t
  | ten ty : a_threshold a = None -> (forall t, a_nominal a <> Some (Some t)) -> types (a_type a) = Some ty -> ty_threshold ty = None -> has_threshold types a 10.

(** [t] is the smallest (greatest) number with the property [P]. *)
Definition smallest (P : Z -> Prop) (t : Z) : Prop := P t /\ forall u, P u -> (t <= u)%Z.
Definition largest (P : Z -> Prop) (t : Z) : Prop := P t /\ forall u, P u -> (u <= t)%Z.

(** The type of one of the appliances says [attr = v]. *)
Definition some_type_says (attr : atype -> option Z) (types : nat -> option atype) (appliances : list appliance) (v : Z) : Prop :=
  exists a ty, In a appliances /\ types (a_type a) = Some ty /\ attr ty = Some v.

Definition known (types : nat -> option atype) (a : appliance) : Prop := types (a_type a) <> None.
