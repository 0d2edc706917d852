(** Vocabulary for good sections answered with the cache. *)
From Verif Require Import Base TimeFrameModel TimeFrameSpec StoreModel StoreSpec.
Import List. Open Scope Z_scope.

(** Two frames with the same ends. *)
Definition same_ends (a b : tf) : Prop := tf_start a = tf_start b /\ tf_end a = tf_end b.

(** Every chunk that the store delivers for one of the sections of [S] has a frame with two
    ends in order. *)
Definition proper_chunks (load : list tf -> gen (chunk bool)) (S : list tf) : Prop :=
  forall s ch, In s S -> In ch (fst (load [s])) -> exists a b, bounded (c_tf ch) a b.

(** No chunk delivered for one of the sections of [S] has the frame of another, and
    a chunk with the frame of its own section is the only chunk of that section. *)
Definition no_mistaken_chunk (load : list tf -> gen (chunk bool)) (S : list tf) : Prop :=
  forall s s' ch, In s S -> In s' S -> In ch (fst (load [s'])) -> same_ends (c_tf ch) s ->
    same_ends s s' /\ load [s] = load [s'] /\ fst (load [s']) = [ch].

(** The section lies inside the window. *)
Definition inside_window (window s : tf) : Prop :=
  tf_empty window = false /\
  (forall a, tf_start window = Some a -> exists x, tf_start s = Some x /\ a <= x) /\
  (forall b, tf_end window = Some b -> exists x, tf_end s = Some x /\ x <= b).

(** Two sections of the list are the same or have no instant in common. *)
Definition same_or_apart (S : list tf) : Prop :=
  forall s s', In s S -> In s' S -> s = s' \/ forall i, ~ (inTF s i /\ inTF s' i).
