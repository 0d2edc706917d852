(** Model of the error in assigned energy (nilmtk/metrics.py:42-73) of predictions and
    ground truth that are meters in HDF stores, without a cache. *)
From Coq Require Import QArith Qabs.
From Verif Require Import Base TimeFrameModel StoreModel EnergyModel TopModel GStatsModel ShareModel ItemModel PairModel.
Import List. Open Scope Z_scope.

(** metrics.py:71, [np.abs(ground_truth_energy - predicted_energy)]: both are Series
    indexed by AC type.  The subtraction is aligned on the union of their indices
    and gives NaN ([None]) where one of them has no entry.  The index is in a fixed order. *)
Definition subtract_abs (x y : option Q) : option Q :=
  match x, y with Some u, Some v => Some (Qabs (u - v)) | _, _ => None end.
Definition has_entry (a : actype) (s : series) : bool := match lookup a s with Some _ => true | None => false end.
Definition abs_difference (t p : series) : series :=
  flat_map (fun a => if has_entry a t || has_entry a p then [(a, subtract_abs (entry t a) (entry p a))] else [])
           [Active; Apparent; Reactive].

(** metrics.py:68-71, the body of the loop.  Each of the two meters has the window of
    its own store.  In J instead of kWh. *)
Definition assigned_error (pred : stored) (wp : tf) (truth : stored) (wt : tf) (csize : nat) : res series :=
  do sections <- good_of pred wp csize;
  do t <- energies_over truth wt sections csize;
  do p <- energies_over pred wp sections csize;
  Ok (abs_difference t p).

Section Metric.
Context {app : Type}.
Variable matches : app -> list (nat * obj) -> res bool.
Variable order : list app -> list app.
Variable several : list (node app) -> list obj.
(* the table of a meter and the window of the store it is in *)
Variable table : node app -> stored * tf.
(* the body of the loop where one of the two is a MeterGroup, not modelled here *)
Variable other_error : node app * found app -> res series.

Definition pair_error (csize : nat) (p : node app * found app) : res series :=
  match p with
  | (Meter _ _ _ _ _ as x, One (Meter _ _ _ _ _ as y)) =>
      assigned_error (fst (table x)) (snd (table x)) (fst (table y)) (snd (table y)) csize
  | _ => other_error p
  end.

(** metrics.py:42-73, [error_in_assigned_energy]. *)
Definition error_in_assigned_energy (csize : nat) (predictions truth : list (node app)) : res (list (obj * series)) :=
  metric matches order several (pair_error csize) predictions truth.
End Metric.
