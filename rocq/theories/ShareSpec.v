(** Vocabulary for the proportion of energy between two meters. *)
From Coq Require Import QArith.
From Verif Require Import Base TimeFrameModel TimeFrameSpec StoreModel StoreSpec EnergyModel EnergySpec GapsSpec TopModel GStatsModel GStatsSpec ShareModel.
Import List. Open Scope Z_scope.

(** A meter that records power of one AC type, with all readings present. *)
Definition power_meter (a : actype) (msp : Z) (s : list (sample Z)) : stored :=
  mkStored [(Power, Some a)] msp (map (fun x => (fst x, [Some (snd x)])) s).

(** The runs [ms'] of one meter are at the times of the runs [ms] of the other. *)
Definition same_times {A B} (ms' : list (list (sample A))) (ms : list (list (sample B))) : Prop := map (map fst) ms' = map (map fst) ms.

(** The sum of two meters that report at the same times. *)
Fixpoint plus (a b : list (sample Z)) : list (sample Z) :=
  match a, b with
  | x :: a', y :: b' => (fst x, snd x + snd y) :: plus a' b'
  | _, _ => []
  end.
Definition nothing (s : list (sample Z)) : list (sample Z) := map (fun x => (fst x, 0)) s.
(** At each time of a reading, the first meter reads no more than the second. *)
Definition at_most (a b : list (sample Z)) : Prop := Forall2 (fun x y => fst x = fst y /\ snd x <= snd y) a b.
Definition not_negative (s : list (sample Z)) : Prop := Forall (fun x => 0 <= snd x) s.

(** A submeter: its AC type, the [max_sample_period] of its device and its readings. *)
Definition submeter := (actype * (Z * list (sample Z)))%type.
Definition meter_of (x : submeter) : stored := power_meter (fst x) (fst (snd x)) (snd (snd x)).

(** What [m.proportion_of_energy(mains)] gives: a number, or NaN. *)
Definition gives (mains : stored) (window : tf) (csize : nat) (m : stored) (p : option Q) : Prop :=
  stored_proportion m mains window csize = Ok (match p with Some q => Fin q | None => NaN end).
Definition sum_given (ps : list (option Q)) : Q := fold_right Qplus 0%Q (map (fun p => match p with Some q => q | None => 0%Q end) ps).
