(** Vocabulary for sessions on a data set: what a caller sees of one generator,
    which window is in force, what a generator that is left alone delivers. *)
From Verif Require Import Base TimeFrameModel StoreModel SessionModel.
Open Scope nat_scope.

(** The operations and their results, in order. *)
Notation trace A := (list (op * outcome A)).

(** The results of advancing generator [g]. *)
Fixpoint answers {A} (g : nat) (l : trace A) : list (outcome A) :=
  match l with
  | [] => []
  | (Next h, r) :: rest => if Nat.eqb h g then r :: answers g rest else answers g rest
  | _ :: rest => answers g rest
  end.

(** How many generators have been asked for. *)
Fixpoint loads (ops : list op) : nat :=
  match ops with
  | [] => 0
  | Load _ _ _ _ :: rest => S (loads rest)
  | _ :: rest => loads rest
  end.

(** What a caller of [next] sees of a generator that yields [fst g] and then
    ends ([snd g = None]) or raises: the first [m] answers. *)
Definition stream {A} (g : gen (chunk A)) (m : nat) : list (outcome A) :=
  firstn m (map Got (fst g) ++ match snd g with Some e => [Raised e] | None => [] end ++ repeat Ended m).

(** The period that a successful call [set_window(start, end)] asks for. *)
Definition asked (localize : Z -> res Z) (start end_ : option stamp) (w : tf) : Prop :=
  tf_empty w = false /\ tf_incl w = false /\
  (forall i, tf_start w = Some i <-> exists t, start = Some (Naive t) /\ localize t = Ok i) /\
  (forall i, tf_end w = Some i <-> exists t, end_ = Some (Naive t) /\ localize t = Ok i) /\
  (tf_start w = None <-> start = None) /\ (tf_end w = None <-> end_ = None).

(** [in_force zone l w]: after the trace [l], the window is that of the last
    call that returned, or all of time if there was none. *)
Definition in_force {A} (zone : option (Z -> res Z)) (l : trace A) (w : tf) : Prop :=
  (w = tf_cleared /\ forall s e, ~ In (SetWindow s e, Done) l) \/
  (exists l1 s e l2 localize, l = l1 ++ (SetWindow s e, Done) :: l2 /\
     (forall s' e', ~ In (SetWindow s' e', Done) l2) /\
     zone = Some localize /\ asked localize s e w).

(** [w] was in force at a time when generator [g], asked for at the end of
    [la], was advanced during [lb]. *)
Definition used {A} (zone : option (Z -> res Z)) (la lb : trace A) (g : nat) (w : tf) : Prop :=
  exists l1 r l2, lb = l1 ++ (Next g, r) :: l2 /\ in_force zone (la ++ l1) w.

(** The operations that concern generator [g]. *)
Definition concerns (g : nat) (o : op) : bool :=
  match o with SetWindow _ _ => true | Load _ _ _ _ => false | Next h => Nat.eqb h g end.

(** Several sections, each with the window it is read under. *)
Fixpoint sections_under {A} (tables : nat -> option (list (sample A))) (key n c : nat)
  (ws sections : list tf) : gen (chunk A) :=
  match ws, sections with
  | w :: ws', s :: ss => gen_app (begin_section tables key w s n c) (sections_under tables key n c ws' ss)
  | _, _ => ([], None)
  end.
