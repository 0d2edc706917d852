(** Vocabulary for the conversion of COMBED (C111). *)
From Verif Require Import Base CombedModel.
Import List. Open Scope list_scope. Open Scope nat_scope.

Section Spec.
  Context {M File Series Table : Type}.
  Variable direct nested : M -> attribute -> option File.
  Variable read : File -> res Series.
  (** There is a file of the attribute, at either place. *)
  Definition available (m : M) (a : attribute) : bool := match direct m a, nested m a with None, None => false | _, _ => true end.
  (** [s] is what that file has; one below combed_path goes before one below iiitd. *)
  Definition holds (m : M) (a : attribute) (s : Series) : Prop :=
    exists f, (direct m a = Some f \/ direct m a = None /\ nested m a = Some f) /\ read f = Ok s.
  (** All files of a meter are there, or none. *)
  Definition all_or_none (m : M) : Prop := forall a b, available m a = available m b.
End Spec.
