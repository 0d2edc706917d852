(** Vocabulary for the energy over named sections and the error in assigned energy. *)
From Coq Require Import QArith.
From Verif Require Import Base TimeFrameModel TimeFrameSpec StoreModel StoreSpec EnergyModel EnergySpec WholeSpec GapsSpec TopModel GStatsModel ShareModel ShareSpec.
Import List. Open Scope Z_scope.

(** The sections follow each other: each has a start before its end and begins no
    earlier than the one before ends. *)
Fixpoint follow_from (lo : option Z) (l : list tf) : Prop :=
  match l with
  | [] => True
  | t :: r => exists s e, bounded t s e /\ (forall x, lo = Some x -> x <= s) /\ follow_from (Some e) r
  end.
Definition in_sequence (l : list tf) : Prop := follow_from None l.

(** The instant belongs to the section and to the window of the store.  The end of a section
    belongs to it if it says so; likewise that of the window, unless the section ends there too. *)
Definition requested (window section : tf) (i : Z) : Prop :=
  tf_empty window = false /\ inTFc section i /\
  (forall b, tf_start window = Some b -> b <= i) /\
  (forall b, tf_end window = Some b -> i < b \/ i = b /\ (tf_end section = Some b \/ tf_incl window = true)).

(** The readings [ms] of the sections, one list for each. *)
Definition section_rows {A} (window : tf) (rows : list (sample A)) (sections : list tf) (ms : list (list (sample A))) : Prop :=
  Forall2 (fun t m => is_filter (fun r => requested window t (fst r)) rows m) sections ms.

(** Some section has two readings. *)
Definition two_readings {A} (ms : list (list (sample A))) : Prop := exists m, In m ms /\ (2 <= length m)%nat.

(** The readings of another meter from the first to the last reading of each of the runs
    [ps], without those at the time of the last one except for the last run. *)
Fixpoint during {A B} (ps : list (list (sample A))) (rows : list (sample B)) (ms : list (list (sample B))) : Prop :=
  match ps, ms with
  | [], [] => True
  | p :: r, m :: n =>
      (exists f l, first_time p f /\ last_time p l /\
         is_filter (fun x => f <= fst x /\ (fst x < l \/ fst x = l /\ r = [])) rows m) /\ during r rows n
  | _, _ => False
  end.

(** The difference of two meters that report at the same times, whatever its sign. *)
Fixpoint apart (a b : list (sample Z)) : list (sample Z) :=
  match a, b with
  | x :: a', y :: b' => (fst x, Z.abs (snd x - snd y)) :: apart a' b'
  | _, _ => []
  end.

(** The window leaves out no reading. *)
Definition leaves_all {A} (window : tf) (rows : list (sample A)) : Prop := forall r, In r rows -> within window (fst r).
