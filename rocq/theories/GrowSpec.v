(** Vocabulary for statistics of a meter whose readings change. *)
From Verif Require Import Base TimeFrameModel StoreModel StoreSpec EnergyModel WholeModel GrowModel.
From Verif Require AvgModel.
Import List. Open Scope Z_scope.

(** The answers computed anew from the readings stored at the time of the question. *)
Fixpoint anew (columns : list column) (msp : Z) (c : nat) (rows : readings_t) (h : list step_op) : list answer :=
  match h with
  | [] => []
  | Append l :: r => anew columns msp c (rows ++ l) r
  | Put l :: r => anew columns msp c l r
  | Clear :: r => anew columns msp c rows r
  | AskGood :: r => Good (whole_good msp (map AvgModel.complete rows) tf_cleared c) :: anew columns msp c rows r
  | AskEnergy a :: r => Energy (whole_energy columns msp a rows tf_cleared c) :: anew columns msp c rows r
  end.

(** A history in which readings are appended in time order, tables have at least two readings
    in time order, and after a table was put in the place of another one the cache is cleared
    before the next question. *)
Fixpoint orderly (replaced : bool) (rows : readings_t) (h : list step_op) : Prop :=
  match h with
  | [] => True
  | Append l :: r => increasing (rows ++ l) /\ orderly replaced (rows ++ l) r
  | Put l :: r => increasing l /\ (2 <= length l)%nat /\ orderly true l r
  | Clear :: r => orderly false rows r
  | AskGood :: r => replaced = false /\ orderly replaced rows r
  | AskEnergy _ :: r => replaced = false /\ orderly replaced rows r
  end.

(** The readings stored after a history. *)
Fixpoint rows_after (rows : readings_t) (h : list step_op) : readings_t :=
  match h with
  | [] => rows
  | Append l :: r => rows_after (rows ++ l) r
  | Put l :: r => rows_after l r
  | _ :: r => rows_after rows r
  end.

(** No reading is missing. *)
Definition no_missing (rows : readings_t) : Prop := Forall (fun r => Forall (fun o => o <> None) (snd r)) rows.
