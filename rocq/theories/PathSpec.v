(** Vocabulary for the path from raw files to a result. *)
From Coq Require Import Sorted Permutation.
From Verif Require Import Base TimeFrameModel TimeFrameSpec StoreModel StoreSpec EnergyModel EnergySpec WholeSpec RawModel RawSpec PathModel.
Import List. Open Scope Z_scope.

(** The rows of a table: one value for each column. *)
Notation line := (list (option Z)).

(** [l] are the lines [r] of a file in the order of time. *)
Definition timeline (r l : list (sample line)) : Prop := Permutation l r /\ increasing l.

(** The energy of column [k] of the lines [l] within a window: the integral of the power in force. *)
Definition file_energy (msp : Z) (k : nat) (l : list (sample line)) (window : tf) (e : Z) : Prop :=
  exists m s, rows_within window l m /\ (2 <= length m)%nat /\ readings k m s /\ is_energy msp s e.

(** A constant load, reported often enough. *)
Fixpoint steady (msp p : Z) (l : list (sample line)) : Prop :=
  match l with
  | a :: r => snd a = [Some p] /\ (match r with b :: _ => fst b - fst a <= msp | [] => True end) /\ steady msp p r
  | [] => True
  end.

(** An AC type in the conversion and when asking for energy. *)
Definition same_type (a : RawModel.actype) : EnergyModel.actype :=
  match a with RawModel.Active => EnergyModel.Active | RawModel.Reactive => EnergyModel.Reactive | RawModel.Apparent => EnergyModel.Apparent end.
