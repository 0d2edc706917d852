(** Vocabulary for Hart's pairing and for the assignment of powers. *)
From Verif Require Import Base.
From Coq Require Import QArith Qabs.
Open Scope nat_scope.

(** Two changes of one power component cancel: if both are smaller than
    [large] their sum is below [min_tol] in absolute value, otherwise below
    [percent] of the larger one. *)
Definition component_cancels (min_tol percent large x y : Q) : Prop :=
  ((Qabs x < large /\ Qabs y < large /\ Qabs (x + y) < min_tol) \/
   exists m, (m = Qabs x \/ m = Qabs y) /\ Qabs x <= m /\ Qabs y <= m /\ large <= m /\ Qabs (x + y) < percent * m)%Q.

(** An ON and a later OFF transition: the first has positive (active) power and
    every component cancels. *)
Definition on_off (min_tol percent large : Q) (a b : Z * list Q) : Prop :=
  (exists x r, snd a = x :: r /\ (0 < x)%Q) /\
  Forall2 (component_cancels min_tol percent large) (snd a) (snd b).

(** Positions used by a list of pairs. *)
Definition used (l : list (nat * nat)) : list nat := flat_map (fun p => [fst p; snd p]) l.

(** The pair at positions [p] of the stream. *)
Definition is_pair {A} (stream : list A) (p : nat * nat) (q : A * A) : Prop :=
  nth_error stream (fst p) = Some (fst q) /\ nth_error stream (snd p) = Some (snd q).

(** ** Power assignment *)

Definition known (v : Z) : Prop := v = 1%Z \/ v = 0%Z.

(** The last event before sample [k] was [s] (1: on, 0: off). *)
Definition last_event (values : list Z) (k : nat) (s : Z) : Prop :=
  known s /\ exists j, j < k /\ nth_error values j = Some s /\ forall m v, j < m < k -> nth_error values m = Some v -> ~ known v.
Definition no_event (values : list Z) (k : nat) : Prop := forall m v, m < k -> nth_error values m = Some v -> ~ known v.

(** The appliance is on before sample [k]: the last event was an on event, or
    there was none and the state given for the beginning is neither "unknown"
    (-1) nor "off" (0). *)
Definition on_before (values : list Z) (prev : Z) (k : nat) : Prop :=
  last_event values k 1 \/ (no_event values k /\ prev <> (-1)%Z /\ prev <> 0%Z).
