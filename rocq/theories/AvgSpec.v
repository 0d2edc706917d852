(** Vocabulary for uptime and average energy. *)
From Coq Require Import QArith.
From Verif Require Import Base TimeFrameModel StoreModel EnergyModel AvgModel.
Import List. Open Scope Z_scope.

(** The time covered by samples at times [l]: the distances between consecutive samples
    that are at most [msp] apart. *)
Fixpoint covered (msp : Z) (l : list Z) : Z :=
  match l with
  | a :: ((b :: _) as r) => (if b - a <=? msp then b - a else 0) + covered msp r
  | _ => 0
  end.
(** The number of longer distances. *)
Fixpoint gaps (msp : Z) (l : list Z) : Z :=
  match l with
  | a :: ((b :: _) as r) => (if b - a <=? msp then 0 else 1) + gaps msp r
  | _ => 0
  end.

(** A meter whose good sections last [u] and whose energy is [e]. *)
Definition measures (m : meter) (u : Z) (e : Q) : Prop := uptime_of (m_good m) = Ok u /\ m_energy m = Ok e.

Definition sumQ (l : list Q) : Q := fold_right Qplus 0%Q l.

(** No value is missing. *)
Definition all_present (rows : list (sample (list (option Z)))) : Prop := Forall (fun r => Forall (fun o => o <> None) (snd r)) rows.

(** The number of the first day of a month in the Gregorian calendar (months 1 to
    12), counted from the first of March of the year 0. *)
Definition day_number (y m : Z) : Z :=
  let m' := (m + 9) mod 12 in let y' := y - m' / 10 in 365 * y' + y' / 4 - y' / 100 + y' / 400 + (m' * 306 + 5) / 10.
(** The month after a month. *)
Definition month_after (ym : Z * Z) : Z * Z := if snd ym =? 12 then (fst ym + 1, 1) else (fst ym, snd ym + 1).
