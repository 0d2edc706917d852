(** Specification of the energy accounting. *)
From Coq Require Import QArith Permutation Sorted.
From Verif Require Import Base TopModel.
Open Scope Q_scope.

(** The order of floats; NaN is not in it. *)
Definition num_le (x y : num) : Prop :=
  match x, y with
  | Fin a, Fin b => a <= b
  | Inf true, (Fin _ | Inf _) => True
  | (Fin _ | Inf _), Inf false => True
  | _, _ => False
  end.
(** What sort_values promises: a reordering, ascending or descending, the NaNs last. *)
Definition may_precede (asc : bool) (x y : num) : Prop :=
  match y with NaN => True | _ => if asc then num_le x y else num_le y x end.
Definition sorts (sort : bool -> list (nat * num) -> list (nat * num)) : Prop :=
  forall asc l, Permutation l (sort asc l) /\ StronglySorted (fun a b => may_precede asc (snd a) (snd b)) (sort asc l).

(** The energy of a meter: the largest of its AC types. *)
Definition energy_is (m : emeter) (e : option Q) : Prop :=
  match e with
  | None => forall x, In x (e_energies m) -> x = None
  | Some q => In (Some q) (e_energies m) /\ forall q', In (Some q') (e_energies m) -> q' <= q
  end.
(** [e] comes before [e'] in a selection: meters without energy come last. *)
Definition preferred (asc : bool) (e e' : option Q) : Prop :=
  match e, e' with
  | _, None => True
  | None, Some _ => False
  | Some x, Some y => if asc then x <= y else y <= x
  end.
