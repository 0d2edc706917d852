(** Independent vocabulary for the properties of time frames: which instants a
    frame contains, what it means to be ordered, to tile a period, etc. *)
From Verif Require Import Base TimeFrameModel.
Open Scope Z_scope.

(** The period a frame stands for, as the class documentation describes it:
    half-open, [None] = unbounded, empty = no instant. *)
Definition inTF (t : tf) (i : Z) : Prop :=
  tf_empty t = false /\
  (forall s, tf_start t = Some s -> s <= i) /\
  (forall e, tf_end t = Some e -> i < e).

(** The same when [include_end] is honoured. *)
Definition inTFc (t : tf) (i : Z) : Prop :=
  tf_empty t = false /\
  (forall s, tf_start t = Some s -> s <= i) /\
  (forall e, tf_end t = Some e -> i < e \/ (tf_incl t = true /\ i = e)).

(** What a user sees: if both ends are visible they are in order. *)
Definition ordered (t : tf) : Prop :=
  forall s e, tf_start t = Some s -> tf_end t = Some e -> s < e.

(** A bounded, non-empty, ordered frame [s, e). *)
Definition bounded (t : tf) (s e : Z) : Prop :=
  tf_start t = Some s /\ tf_end t = Some e /\ tf_empty t = false /\ s < e.

Definition is_bounded (t : tf) : Prop := exists s e, bounded t s e.

(** Assignments a program can make to a frame. *)
Inductive edit :=
  | SetStart (o : option Z)
  | SetEnd (o : option Z)
  | SetEnabled (b : bool).

(** One assignment: on an exception the object is what it was before. *)
Definition apply_edit (t : tf) (e : edit) : tf :=
  match e with
  | SetStart o => match set_start t o with Ok t' => t' | Err _ => t end
  | SetEnd o => match set_end t o with Ok t' => t' | Err _ => t end
  | SetEnabled b => set_enabled t b
  end.

(** Histories that never assign [start]/[end] while the frame is disabled. *)
Fixpoint disciplined (enabled : bool) (l : list edit) : Prop :=
  match l with
  | [] => True
  | SetEnabled b :: r => disciplined b r
  | _ :: r => enabled = true /\ disciplined enabled r
  end.

(** [chain s l e]: the frames of [l] are laid end to end from [s] to [e]. *)
Fixpoint chain (s : Z) (l : list tf) (e : Z) : Prop :=
  match l with
  | [] => s = e
  | p :: r => exists m, bounded p s m /\ chain m r e
  end.

Definition duration_is (t : tf) (d : Z) : Prop :=
  exists s e, tf_start t = Some s /\ tf_end t = Some e /\ e - s = d.

(** [covers l i]: some frame of the list contains the instant. *)
Definition covers (l : list tf) (i : Z) : Prop := exists t, In t l /\ inTF t i.

(** Consecutive frames do not overlap and are in time order. *)
Fixpoint in_order (l : list tf) : Prop :=
  match l with
  | a :: ((b :: _) as r) =>
      (forall e s, tf_end a = Some e -> tf_start b = Some s -> e <= s) /\ in_order r
  | _ => True
  end.

(** [consecutive a b l]: [b] directly follows [a] in [l]. *)
Definition consecutive (a b : tf) (l : list tf) : Prop :=
  exists l1 l2, l = l1 ++ a :: b :: l2.

(** No instant lies in two different positions of the list. *)
Definition no_overlap (l : list tf) : Prop :=
  forall j k a b i, nth_error l j = Some a -> nth_error l k = Some b ->
    inTF a i -> inTF b i -> j = k.

(** All integers of [lo, lo+n). *)
Fixpoint zrange (lo : Z) (n : nat) : list Z :=
  match n with O => [] | S n' => lo :: zrange (lo + 1) n' end.

(** Boolean membership, only used to count instants. *)
Definition inTFb (t : tf) (i : Z) : bool :=
  negb (tf_empty t) &&
  (match tf_start t with None => true | Some s => s <=? i end) &&
  (match tf_end t with None => true | Some e => i <? e end).

(** Number of instants of [lo, lo+n) that some frame of the group contains. *)
Definition measure (l : list tf) (lo : Z) (n : nat) : Z :=
  Z.of_nat (length (filter (fun i => existsb (fun t => inTFb t i) l) (zrange lo n))).

(** The group lies within [lo, lo+n). *)
Definition within (l : list tf) (lo : Z) (n : nat) : Prop :=
  forall t i, In t l -> inTF t i -> lo <= i < lo + Z.of_nat n.

(** The two ways in which the end point goes wrong. *)
Definition end_point_bad (a b : tf) : Prop :=
  tf_empty a = false /\ tf_empty b = false /\
  ((exists e, tf_end a = Some e /\ tf_end b = Some e /\ tf_incl b = true /\ tf_incl a = false)
   \/ (exists e, tf_end a = Some e /\ tf_start b = Some e /\ tf_incl a = true)
   \/ (exists e, tf_end b = Some e /\ tf_start a = Some e /\ tf_incl b = true)).

(** Consecutive frames more than [gap] apart. *)
Fixpoint spaced (gap : Z) (l : list tf) : Prop :=
  match l with
  | a :: ((b :: _) as r) =>
      (forall e s, tf_end a = Some e -> tf_start b = Some s -> gap < s - e) /\ spaced gap r
  | _ => True
  end.

(** A frame as the library builds them: ends in order, and an empty frame has
    no ends. *)
Definition canonical (t : tf) : Prop :=
  ordered t /\ (tf_empty t = true -> tf_start t = None /\ tf_end t = None).
