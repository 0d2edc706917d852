(** Specification of the metrics. *)
From Coq Require Import QArith Qabs Reals.
From Verif Require Import Base TopModel MetricsModel.
Open Scope Q_scope.

(** The prediction is right everywhere. *)
Definition same (gt pred : list Q) : Prop := Forall2 Qeq gt pred.
(** An appliance is on from 10 W. *)
Definition on (x : Q) : Prop := 10 <= x.
(** Both series agree on when the appliance is on. *)
Definition same_states (gt pred : list Q) : Prop := Forall2 (fun x y => on x <-> on y) gt pred.

(** How often the first list has [a] and the second [b]. *)
Inductive cases (a b : bool) : list (bool * bool) -> Z -> Prop :=
  | ca_nil : cases a b [] 0
  | ca_hit l n : cases a b l n -> cases a b ((a, b) :: l) (n + 1)
  | ca_miss x l n : x <> (a, b) -> cases a b l n -> cases a b (x :: l) n.

(** The energy fractions of a meter: nothing but valid, non-negative energies, not all zero. *)
Definition proper (ms : list emeter) : Prop :=
  NoDup (map e_id ms) /\ (forall m, In m ms -> exists q, meter_energy m = Some q /\ 0 <= q) /\ 0 < total_energy ms.
Definition fraction_of (ms : list emeter) (i : nat) (f : Q) : Prop :=
  exists m q, In m ms /\ e_id m = i /\ meter_energy m = Some q /\ f == q / total_energy ms.

Definition num_eq (x y : num) : Prop := match x, y with Fin a, Fin b => a == b | NaN, NaN => True | Inf s, Inf s' => s = s' | _, _ => False end.

(** The mean of the squared differences. *)
Definition mean_square (ps : list (Q * Q)) : Q := qsum (map (fun p => (fst p - snd p) * (fst p - snd p)) ps) / inject_Z (Z.of_nat (length ps)).
(** The mean of the valid samples from t up to t + period. *)
Definition window_values (c : list (Z * option Q)) (t period : Z) : list Q :=
  flat_map (fun x => if (t <=? fst x)%Z && (fst x <? t + period)%Z then match snd x with Some v => [v] | None => [] end else []) c.
Definition window_mean (c : list (Z * option Q)) (t period : Z) (m : Q) : Prop :=
  window_values c t period <> [] /\ m == qsum (window_values c t period) / inject_Z (Z.of_nat (length (window_values c t period))).
(** Midnight in UTC, in seconds. *)
Definition utc_midnight (t : Z) : Z := (t / 86400 * 86400)%Z.
