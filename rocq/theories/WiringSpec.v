(** Vocabulary for the wiring of meters (C58). *)
From Verif Require Import Base WiringModel.
Open Scope nat_scope.

(** Each meter was created once. *)
Definition created_once (created : list wmeter) : Prop := NoDup (map w_id created).

(** In the same building of the same data set. *)
Definition same_building (a b : wmeter) : Prop :=
  i_building (w_id a) = i_building (w_id b) /\ i_dataset (w_id a) = i_dataset (w_id b).

(** The metadata of [m] say that it hangs below instance [k] (0: the mains). *)
Definition below (m : wmeter) (k : nat) : Prop :=
  w_site m = false /\ w_submeter_of m = Some (Z.of_nat k) /\
  (w_upstream_building m = None \/ w_upstream_building m = Some (i_building (w_id m))).

(** The site meters among the created ones, in order of creation. *)
Definition site_meters (created : list wmeter) (m : wmeter) (l : list wmeter) : Prop :=
  exists sel : wmeter -> bool, (forall x, sel x = true <-> same_building x m /\ w_site x = true) /\ l = filter sel created.

(** Equal meters have equal identifiers; equal groups have the same meters. *)
Definition equal_nodes (a b : wnode) : Prop :=
  match a, b with
  | WMeter x, WMeter y => w_id x = w_id y
  | WGroup x, WGroup y => forall i, In i (map w_id x) <-> In i (map w_id y)
  | _, _ => False
  end.
Definition equal_upstream (a b : option wnode) : Prop :=
  match a, b with Some x, Some y => equal_nodes x y | None, None => True | _, _ => False end.

(** [n] is the upstream meter of [m]. *)
Definition hangs (reg : list wmeter) (m : wmeter) (n : wnode) : Prop := upstream reg m = Ok (Some n).

(** The meters of the group, at any depth. *)
Definition meters_in (ms : list wtree) : list wmeter := flat_map leaves ms.

(** Everything in the group hangs, directly or not, below [top], which hangs below nothing. *)
Definition wired_below (reg : list wmeter) (ms : list wtree) (top : wnode) : Prop :=
  NoDup (map w_id (meters_in ms)) /\
  (forall m, In m (meters_in ms) -> exists u, upstream reg m = Ok u) /\
  (exists m n, In m (meters_in ms) /\ hangs reg m n /\ equal_nodes top n) /\
  (forall m n, In m (meters_in ms) -> hangs reg m n -> ~ equal_nodes top (WMeter m)) /\
  (forall m n, In m (meters_in ms) -> hangs reg m n -> equal_nodes top n \/
     exists m' n', In m' (meters_in ms) /\ hangs reg m' n' /\ equal_nodes n (WMeter m')).
