(** Vocabulary for the summary of a group. *)
From Coq Require Import QArith.
From Verif Require Import Base TimeFrameModel StoreModel StoreSpec EnergyModel EnergySpec AvgSpec DescribeModel.
Import List. Open Scope Z_scope.

(** The meters of a node, in order. *)
Fixpoint meters_in (n : node) : list stored :=
  match n with Meter m => [m] | Many f r => meters_in f ++ flat_map meters_in r end.
Definition meters_of (g : group) : list stored := flat_map meters_in (members g).
(** The node measures the whole building: one of its meters is a site meter. *)
Definition on_mains (n : node) : Prop := exists m, In m (meters_in n) /\ st_site m = true.

(** [l] is the sublist of those elements of a list that satisfy [P]. *)
Inductive chosen {A} (P : A -> Prop) : list A -> list A -> Prop :=
  | chosen_nil : chosen P [] []
  | chosen_in x l r : P x -> chosen P l r -> chosen P (x :: l) (x :: r)
  | chosen_out x l r : ~ P x -> chosen P l r -> chosen P (x :: l) r.

(** The first meter of the first member that is on the mains. *)
Definition first_mains (g : group) (m : stored) : Prop :=
  exists n l ms, chosen on_mains (members g) (n :: l) /\ meters_in n = m :: ms.

(** A meter with at least two readings in time order, none missing. *)
Definition sound (m : stored) : Prop :=
  0 <= st_msp m /\ increasing (st_rows m) /\ (2 <= length (st_rows m))%nat /\ all_present (st_rows m).
(** Its column [k] is used for the energy and holds [s]. *)
Definition metered (m : stored) (s : list (sample Z)) : Prop :=
  exists k, uses_column (st_columns m) (st_ac m) Power k /\ readings k (st_rows m) s.
Definition times (m : stored) : list Z := map fst (st_rows m).

(** The least and the greatest instant at which a meter of the group has a reading. *)
Definition first_instant (ms : list stored) (a : Z) : Prop :=
  (exists m, In m ms /\ In a (times m)) /\ forall m t, In m ms -> In t (times m) -> a <= t.
Definition last_instant (ms : list stored) (b : Z) : Prop :=
  (exists m, In m ms /\ In b (times m)) /\ forall m t, In m ms -> In t (times m) -> t <= b.

Definition one_building (g : group) : Prop := forall m m', In m (meters_of g) -> In m' (meters_of g) -> st_building m = st_building m'.

(** [z] is the largest sample period of the meters. *)
Definition longest_period (ms : list stored) (z : Z) : Prop :=
  (exists m, In m ms /\ st_period m = Some z) /\ forall m y, In m ms -> st_period m = Some y -> y <= z.

(** The meter has a column for its energy; [e] is the energy by its readings. *)
Definition uses (m : stored) : Prop := exists s, metered m s.
Definition consumed (m : stored) (e : Z) : Prop := exists s, metered m s /\ is_energy (st_msp m) s e.

(** [q] is the mean of [l]. *)
Definition mean_is (l : list Q) (q : Q) : Prop := l <> [] /\ (q * inject_Z (Z.of_nat (length l)) == fold_right Qplus 0 l)%Q.

(** The sample period of the meter is in its metadata. *)
Definition known (m : stored) : Prop := st_period m <> None.
(** The dropout rate of the meter can be had and is a number, [q]. *)
Definition rated (m : stored) (q : Q) : Prop := st_rate m = Ok (Some q).

(** The statistics asked for can be had: none are asked for, or the correlation and the
    proportion have a value and every meter has a dropout rate. *)
Definition at_hand {C P} (stats : option (res C * res P)) (g : group) : Prop :=
  match stats with
  | None => True
  | Some (x, y) => (exists v, x = Ok v) /\ (exists w, y = Ok w) /\ Forall (fun m => exists q, rated m q) (meters_of g)
  end.
