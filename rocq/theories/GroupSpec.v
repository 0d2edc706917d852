(** Specification of the set operations on groups. *)
From Verif Require Import Base GroupModel.
From Coq Require Import Permutation.
Open Scope nat_scope.

(** [l] is made of [l1] and [l2], each in its own order. *)
Inductive interleaves {A} : list A -> list A -> list A -> Prop :=
  | il_nil : interleaves [] [] []
  | il_left x l1 l2 l : interleaves l1 l2 l -> interleaves (x :: l1) l2 (x :: l)
  | il_right x l1 l2 l : interleaves l1 l2 l -> interleaves l1 (x :: l2) (x :: l).

(** The meters that [mains] returns, however it wraps them. *)
Definition mains_meters (r : mains_result) : list node :=
  match r with NoMains => [] | OneMains x => [x] | MainsGroup l => l end.

(** The ElecMeters of a node, at any depth. *)
Inductive leaf_of : node -> node -> Prop :=
  | leaf_self i b d s : leaf_of (Leaf i b d s) (Leaf i b d s)
  | leaf_in x n ms ds y : In y ms -> leaf_of x y -> leaf_of x (Group n ms ds).
Definition leaf_in_group (x : node) (g : group) : Prop := exists y, In y (g_meters g) /\ leaf_of x y.
Definition building_of (x : node) : option nat := match x with Leaf _ b _ _ => Some b | Group _ _ _ => None end.
Definition site_of (x : node) : bool := match x with Leaf _ _ _ s => s | Group _ _ _ => false end.

(** Every nested group has meters in it. *)
Inductive full : node -> Prop :=
  | full_leaf i b d s : full (Leaf i b d s)
  | full_group n ms ds : ms <> [] -> Forall full ms -> full (Group n ms ds).

(** How many of the nodes of a list are equal ([==]) to [x]. *)
Definition copies (x : node) (l : list node) : nat := length (filter (node_eq x) l).

(** Equal nodes are the same node. *)
Definition identified (l : list node) : Prop := forall x y, In x l -> In y l -> node_eq x y = true -> x = y.
Definition is_leaf (x : node) : Prop := match x with Leaf _ _ _ _ => True | Group _ _ _ => False end.
