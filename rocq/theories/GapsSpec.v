(** Vocabulary for statistics of the good sections of a meter. *)
From Coq Require Import QArith.
From Verif Require Import Base TimeFrameModel TimeFrameSpec StoreModel StoreSpec GoodSectionsSpec EnergySpec WholeSpec.
Import List. Open Scope Z_scope.

(** [ms] divides the readings [m] into runs without a gap longer than [msp]. *)
Definition row_runs {A} (msp : Z) (m : list (sample A)) (ms : list (list (sample A))) : Prop :=
  concat ms = m /\ runs_of msp (map fst m) (map (map fst) ms).

(** The runs of at least two readings. *)
Definition long_runs {A} (ms : list (list A)) : list (list A) := filter (fun p => Nat.leb 2 (length p)) ms.

(** Of each run but the last one its last reading is left out. *)
Fixpoint cut_runs {A} (ms : list (list A)) : list (list A) :=
  match ms with
  | [] => []
  | [p] => [p]
  | p :: r => removelast p :: cut_runs r
  end.

(** No reading follows [last] within [msp]. *)
Definition ends_there {A} (msp : Z) (rows : list (sample A)) (last : Z) : Prop :=
  forall r, In r rows -> ~ (last < fst r <= last + msp).

(** [q] is the mean of the rates of missing readings in the pieces [ps], each
    weighted with its number of readings. *)
Definition weighted_missing {A} (period : Z) (ps : list (list (sample A))) (q : Q) : Prop :=
  exists rates, Forall2 (missing_rate period) ps rates /\
    (q * inject_Z (Z.of_nat (length (concat ps))) ==
     fold_right Qplus 0 (map (fun pr => snd pr * inject_Z (Z.of_nat (length (fst pr)))) (combine ps rates)))%Q.

(** The readings follow each other every [period]. *)
Fixpoint regular {A} (period : Z) (p : list (sample A)) : Prop :=
  match p with
  | x :: ((y :: _) as r) => fst y - fst x = period /\ regular period r
  | _ => True
  end.

(** [e] is the energy of the readings of column [k] in the rows [p]. *)
Definition energy_of_rows (k : nat) (msp : Z) (p : list (sample (list (option Z)))) (e : Z) : Prop :=
  exists s, readings k p s /\ is_energy msp s e.

(** No value is missing. *)
Definition complete (rows : list (sample (list (option Z)))) : Prop := Forall (fun r => Forall (fun o => o <> None) (snd r)) rows.

(** The times of the rows without a missing value. *)
Definition times_with {A} (v : A -> bool) (p : list (sample A)) : list Z := map fst (filter (fun r => v (snd r)) p).

(** [ms] divides the rows [m] into single rows and spans from one row without a
    missing value to another, such that within a span such rows are at most
    [msp] apart and between spans they are more than [msp] apart. *)
Definition row_spans {A} (v : A -> bool) (msp : Z) (m : list (sample A)) (ms : list (list (sample A))) : Prop :=
  concat ms = m /\
  Forall (fun p => (exists x, p = [x]) \/ (exists x q y, p = x :: q ++ [y] /\ v (snd x) = true /\ v (snd y) = true)) ms /\
  runs_of msp (times_with v m) (filter (fun ts => match ts with [] => false | _ => true end) (map (times_with v) ms)).

(** [e] is the energy of the readings of column [k] that are present in the rows [p]. *)
Definition energy_present (k : nat) (msp : Z) (p : list (sample (list (option Z)))) (e : Z) : Prop :=
  exists s, present k p s /\ is_energy msp s e.
