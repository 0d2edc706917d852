(** Vocabulary for energy properties. *)
From Verif Require Import Base TimeFrameModel TimeFrameSpec StoreModel StoreSpec EnergyModel.
Open Scope Z_scope.

(** The power in force at instant [i]: the reading of the last sample at or
    before [i], provided it is not older than [msp] and a later sample exists. *)
Fixpoint power_at (msp : Z) (s : list (sample Z)) (i : Z) : Z :=
  match s with
  | (t, v) :: (((t', _) :: _) as r) =>
      if (t <=? i) && (i <? t') then (if i <? t + msp then v else 0) else power_at msp r i
  | _ => 0
  end.

(** The sum of [f] over all instants of [lo, hi). *)
Definition sum_over (f : Z -> Z) (lo hi : Z) : Z := sumZ (map f (zrange lo (Z.to_nat (hi - lo)))).

(** [e] is the energy of the samples [s]: the integral of the power in force
    from the first to the last sample. *)
Definition is_energy (msp : Z) (s : list (sample Z)) (e : Z) : Prop :=
  (s = [] /\ e = 0) \/
  exists lo hi, first_time s lo /\ last_time s hi /\ e = sum_over (power_at msp s) lo hi.

(** The readings of column [k] of rows: all present. *)
Definition readings (k : nat) (m : list (sample (list (option Z)))) (s : list (sample Z)) : Prop :=
  Forall2 (fun r x => fst x = fst r /\ nth_error (snd r) k = Some (Some (snd x))) m s.

(** The column of AC type [a] that is used, by preference order. *)
Definition uses_column (columns : list column) (a : actype) (q : pquantity) (k : nat) : Prop :=
  nth_error columns k = Some (q, Some a) /\ NoDup columns /\
  (q = CumulativeEnergy \/
   (q = Energy /\ ~ In (CumulativeEnergy, Some a) columns) \/
   (q = Power /\ ~ In (CumulativeEnergy, Some a) columns /\ ~ In (Energy, Some a) columns)).

(** The readings of column [k] that are present, with their times. *)
Inductive present (k : nat) : list (sample (list (option Z))) -> list (sample Z) -> Prop :=
  | present_nil : present k [] []
  | present_some r v m s : nth k (snd r) None = Some v -> present k m s -> present k (r :: m) ((fst r, v) :: s)
  | present_none r m s : nth k (snd r) None = None -> present k m s -> present k (r :: m) s.

(** How far a counter advanced from its first to its last reading. *)
Definition advance (s : list (sample Z)) (e : Z) : Prop :=
  (s = [] /\ e = 0) \/ exists x y r r', s = x :: r /\ s = r' ++ [y] /\ e = snd y - snd x.

(** The sum of the readings of column [k], missing ones counting 0. *)
Definition readings_sum (k : nat) (m : list (sample (list (option Z)))) : Z :=
  sumZ (map (fun r => match nth k (snd r) None with Some v => v | None => 0 end) m).
