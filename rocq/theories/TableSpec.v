(** Specification of the tables and summaries of a group. *)
From Coq Require Import Permutation Sorted Reals.
From Verif Require Import Base PipelineModel ColumnsModel TopModel CorrModel TopSpec CorrSpec TableModel.
Import List. Open Scope nat_scope.

(** The entry of a table under a label. *)
Inductive entry {I A} : list (I * A) -> I -> A -> Prop :=
  | entry_here i x l : entry ((i, x) :: l) i x
  | entry_later k y i x l : k <> i -> entry l i x -> entry ((k, y) :: l) i x.
(** The cell of a table with columns in column [i] and row [j]. *)
Definition cell {I V} (fr : list (I * list (I * option V))) (i j : I) (v : V) : Prop :=
  exists c, entry fr i c /\ entry c j (Some v).
(** A square table with these labels on both sides. *)
Definition square {I V} (ids : list I) (fr : list (I * list (I * V))) : Prop :=
  map fst fr = ids /\ Forall (fun c => map fst (snd c) = ids) fr.

(** [m] stands at position [i] of the group. *)
Definition at_place {M} (ms : list M) (i : nat) (m : M) : Prop := nth_error ms i = Some m.
(** Place [i, j] comes before [k, l], line by line. *)
Definition before (i j k l : nat) : Prop := i < k \/ i = k /\ j < l.

(** Two statistics of pairs on the members of a group. *)
Definition symmetric {M V} (ms : list M) (method : M -> M -> res V) : Prop := forall a b, In a ms -> In b ms -> method a b = method b a.

(** What sort_values(ascending=False) promises: a reordering, the largest first, NaN last. *)
Definition as_num (x : option num) : num := match x with Some v => v | None => NaN end.
Definition descending {I} (l : list (I * option num)) : Prop := StronglySorted (fun a b => may_precede false (as_num (snd a)) (as_num (snd b))) l.
Definition sorts_down {I} (sort : list (I * option num) -> list (I * option num)) : Prop := forall l, Permutation l (sort l) /\ descending (sort l).

(** The meters of a group, at any depth. *)
Inductive leaf_of {A} : tree A -> A -> Prop :=
  | leaf_self x : leaf_of (Leaf x) x
  | leaf_group l t x : In t l -> leaf_of t x -> leaf_of (Group l) x.
(** A group with an empty group in it (or empty itself). *)
Inductive hollow {A} : tree A -> Prop :=
  | hollow_self : hollow (Group [])
  | hollow_group l t : In t l -> hollow t -> hollow (Group l).

(** What [list(set(l))] promises. *)
Definition distinct {A} (order : list A -> list A) : Prop := forall l, NoDup (order l) /\ forall x, In x (order l) <-> In x l.
(** The physical quantities asked for. *)
Definition asked (arg : pq_arg) (p : pq) : Prop :=
  match arg with PqNone => False | PqName q => p = q | PqList l => In p l end.
Definition known (p : pq) : Prop := match p with OtherPQ _ => False | _ => True end.
Definition valid_request (arg : pq_arg) : Prop := arg <> PqNone /\ forall p, asked arg p -> known p.

(** The order of instances of one kind: numbers, or tuples in the order of a dictionary. *)
Inductive lex_le : list Z -> list Z -> Prop :=
  | lex_nil l : lex_le [] l
  | lex_less x y l l' : (x < y)%Z -> lex_le (x :: l) (y :: l')
  | lex_same x l l' : lex_le l l' -> lex_le (x :: l) (x :: l').
Inductive inst_le : inst -> inst -> Prop :=
  | le_meter a b : (a <= b)%Z -> inst_le (IMeter a) (IMeter b)
  | le_group a b : lex_le a b -> inst_le (IGroup a) (IGroup b).
Definition is_group (x : inst) : bool := match x with IMeter _ => false | IGroup _ => true end.
Definition one_kind {M} (instance : M -> inst) (l : list M) : Prop :=
  forall x y, In x l -> In y l -> is_group (instance x) = is_group (instance y).
Definition inst_dec : forall x y : inst, {x = y} + {x <> y}.
Proof. decide equality; [apply Z.eq_dec|apply (list_eq_dec Z.eq_dec)]. Defined.
(** The members with a given instance, in the order they are listed. *)
Definition with_instance {M} (instance : M -> inst) (k : inst) (l : list M) : list M :=
  filter (fun m => if inst_dec (instance m) k then true else false) l.
