(** What is said about exporting and importing trained models. *)
From Coq Require Import String.
From Verif Require Import Base PickleModel.
Import List. Open Scope list_scope. Open Scope nat_scope.

(** What was pickled comes back, and a file that ends too early cannot be read. *)
Definition pickles {A} (dumps : A -> list nat) (loads : list nat -> option A) : Prop :=
  (forall a, loads (dumps a) = Some a) /\ (forall a n, n < length (dumps a) -> loads (firstn n (dumps a)) = None).

Section Spec.
  Context {Payload Window : Type}.
  Notation object := (object Payload Window).
  Notation heap := (heap Payload Window).

  (** The object reads an HDF file through some window. *)
  Definition on_hdf (o : object) : Prop := exists f w, o_store o = Store (Hdf f w).
  (** … and that file can be opened again. *)
  Definition reopens (can_open : string -> bool) (o : object) : Prop := exists f w, o_store o = Store (Hdf f w) /\ can_open f = true.
  (** The objects some meters refer to. *)
  Definition refers {A} (h : heap) (l : list (A * nat)) (objs : list object) : Prop :=
    Forall2 (fun m o => nth_error h (snd m) = Some o) l objs.
  (** The same meter on the same file, through a window of its own. *)
  Definition same_file (w' : Window) (o n : object) : Prop :=
    payload n = payload o /\ exists f w, o_store o = Store (Hdf f w) /\ o_store n = Store (Hdf f w').
  (** The same meter, with the name of its file where its store was. *)
  Definition only_name (o n : object) : Prop :=
    payload n = payload o /\ exists f w, o_store o = Store (Hdf f w) /\ o_store n = Path f.
End Spec.

(** What a trained Hart85 consists of. *)
Definition hart_parts : list string := ["columns"; "state_threshold"; "noise_level"; "steady_states"; "transients"; "centroids"]%string.
(** The value last given for a key (the first of the list). *)
Definition value_of {V} (d : list (string * V)) (k : string) : option V :=
  match find (fun p => String.eqb (fst p) k) d with Some p => Some (snd p) | None => None end.
