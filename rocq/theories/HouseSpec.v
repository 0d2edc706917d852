(** Vocabulary for the correlation of mains and submeters (C106). *)
From Coq Require Import QArith Reals Qreals.
From Verif Require Import Base WiringModel WiringSpec CorrSpec HouseModel.
Open Scope R_scope.

(** The meters of a list with a property, in order. *)
Definition chosen (P : wmeter -> Prop) (ms l : list wmeter) : Prop :=
  exists sel : wmeter -> bool, (forall m, sel m = true <-> P m) /\ l = filter sel ms.
Definition site (m : wmeter) : Prop := w_site m = true.
(** [m] hangs directly below [top]. *)
Definition directly_below (reg : list wmeter) (top : wnode) (m : wmeter) : Prop := exists n, hangs reg m n /\ equal_nodes top n.
Definition one_building (ms : list wmeter) : Prop := forall x y, In x ms -> In y ms -> i_building (w_id x) = i_building (w_id y).

(** Every meter has a reading every [p] seconds, [n] + 1 of them from [t0] on, which is on the grid of
    resampling; [power m i] is the reading number [i] of [m]. *)
Definition regular (midnight : Z -> Z) (data : wmeter -> mdata) (power : wmeter -> nat -> Q) (t0 p : Z) (n : nat) (ms : list wmeter) : Prop :=
  (0 < p)%Z /\ (exists k, t0 = midnight t0 + k * p)%Z /\
  forall m, In m ms -> md_period (data m) = p /\ md_rows (data m) = map (fun i => ((t0 + Z.of_nat i * p)%Z, power m i)) (seq 0 (S n)).

(** The sum of the readings number [i]. *)
Definition total (power : wmeter -> nat -> Q) (ms : list wmeter) (i : nat) : R := rsum (map (fun m => Q2R (power m i)) ms).
(** The readings of the mains and the sums of the submeters, for the first [n] readings. *)
Definition pairs (power : wmeter -> nat -> Q) (mains subs : list wmeter) (n : nat) : list (R * R) :=
  map (fun i => (total power mains i, total power subs i)) (seq 0 n).
