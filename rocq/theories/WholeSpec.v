(** Vocabulary for statistics of a whole meter. *)
From Coq Require Import QArith Qminmax.
From Verif Require Import Base TimeFrameModel TimeFrameSpec StoreModel StoreSpec ResultsSpec.
Open Scope Z_scope.

(** The instants of a window, the end of the window included. *)
Definition within (window : tf) (i : Z) : Prop :=
  tf_empty window = false /\
  (forall s, tf_start window = Some s -> s <= i) /\
  (forall e, tf_end window = Some e -> i <= e).

(** The stored rows within a window. *)
Definition rows_within {A} (window : tf) (rows m : list (sample A)) : Prop :=
  is_filter (fun r => within window (fst r)) rows m.

(** A window from [a] to [b] ([None]: without bound). *)
Definition window_of (a b : option Z) (w : tf) : Prop :=
  tf_empty w = false /\ tf_start w = a /\ tf_end w = b.

(** The proportion of samples missing from rows taken every [period]: 0 if
    there are fewer than five. *)
Definition missing_rate {A} (period : Z) (m : list (sample A)) (q : Q) : Prop :=
  ((length m < 5)%nat /\ (q == 0)%Q) \/
  ((5 <= length m)%nat /\ exists s e k, first_time m s /\ last_time m e /\ nearest k (e - s) period /\
     (q == Qmax 0 (1 - inject_Z (Z.of_nat (length m)) / inject_Z (k + 1)))%Q).

(** The energy of a meter: nothing counts as zero. *)
Definition energy_value (o : option Z) : Z := match o with Some v => v | None => 0 end.
