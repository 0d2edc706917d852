(** Vocabulary for the table of the meters of a group (C57). *)
From Coq Require Import QArith Permutation.
From Verif Require Import Base DfModel.
Open Scope nat_scope.

(** An outer join has each time of each index once. *)
Definition outer (union : list (list Z) -> list Z) : Prop :=
  forall l, NoDup (union l) /\ forall t, In t (union l) <-> exists x, In x l /\ In t x.

(** Meters are distinct; no chunk repeats a time. *)
Definition well_formed (ms : list meter) : Prop :=
  NoDup (map fst ms) /\ forall m c, In m ms -> In c (snd m) -> NoDup (map fst c).

(** No meter has a reading in its [k]-th chunk. *)
Definition blank (ms : list meter) (k : nat) : Prop :=
  forall m c, In m ms -> nth_error (snd m) k = Some c -> c = [].

(** The readings in the column of meter [i]. *)
Definition in_column (i : nat) (rows : list (Z * cells)) : list (Z * Q) :=
  flat_map (fun row => flat_map (fun c => if Nat.eqb (fst c) i then match snd c with Some v => [(fst row, v)] | None => [] end else []) (snd row)) rows.

Definition times (d : table) : list Z := map fst (snd d).

(** All chunks of a round lie in the same period, periods follow one another. *)
Definition aligned (b : nat -> Z) (ms : list meter) : Prop :=
  (forall k, (b k <= b (S k))%Z) /\
  forall m k c t v, In m ms -> nth_error (snd m) k = Some c -> In (t, v) c -> (b k <= t < b (S k))%Z.
