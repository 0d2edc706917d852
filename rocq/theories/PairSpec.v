(** What comparing the submeters of two groups should do. *)
From Verif Require Import Base ItemModel ItemSpec.
Open Scope Z_scope.

(** The identifier of the same meter (or group of meters) in the data set [d]. *)
Fixpoint moved (d : obj) (x : obj) : obj :=
  match x with
  | MeterID i b _ => MeterID i b d
  | GroupID l => GroupID (map (moved d) l)
  | x => x
  end.

Section Spec.
Context {app : Type}.

(** [x] is the counterpart, in the data set [d], of the submeter [m]: the meter
    with the same instance and building, or the group of the same meters. *)
Definition counterpart (d : obj) (m x : node app) : Prop :=
  match m with
  | Meter i b _ _ _ => Same (ident x) (MeterID i b d)
  | Grp ms => group_of_ids (map (fun y => moved d (ident y)) ms) x
  end.

(** The members of a group that are not site meters and contain none. *)
Definition is_submeter (x : node app) : Prop := ~ has_site x.

(** The last element of [l] with the property. *)
Definition Last {A} (P : A -> Prop) (l : list A) (x : A) : Prop :=
  exists l1 l2, l = l1 ++ x :: l2 /\ P x /\ forall y, In y l2 -> ~ P y.
End Spec.

(** The entry of a Series under an index value. *)
Fixpoint get {V} (k : obj) (d : list (obj * V)) : option V :=
  match d with [] => None | (k', v) :: r => if py_eq k k' then Some v else get k r end.
