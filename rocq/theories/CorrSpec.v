(** Pearson's correlation of a list of pairs. *)
From Coq Require Import Reals.
From Verif Require Import Base CorrModel.
Open Scope R_scope.

Definition rsum (l : list R) : R := fold_right Rplus 0 l.
Definition mean (l : list R) : R := rsum l / INR (length l).
(** The sum of the products of the deviations. *)
Definition codeviation (ps : list (R * R)) : R :=
  rsum (map (fun p => (fst p - mean (map fst ps)) * (snd p - mean (map snd ps))) ps).
Definition deviation (l : list R) : R := rsum (map (fun x => (x - mean l) * (x - mean l)) l).
(** [r] is the correlation coefficient of the pairs. *)
Definition pearson (ps : list (R * R)) (r : R) : Prop :=
  0 < deviation (map fst ps) * deviation (map snd ps) /\ r = codeviation ps / sqrt (deviation (map fst ps) * deviation (map snd ps)).

(** Two lists of chunks, cut alike and with the same time stamps, all values valid,
    that hold the given pairs. *)
Inductive aligned : list chunk -> list chunk -> list (R * R) -> Prop :=
  | al_nil : aligned [] [] []
  | al_cons (tps : list (Z * (R * R))) xs ys ps : aligned xs ys ps ->
      aligned (map (fun t => (fst t, Some (fst (snd t)))) tps :: xs) (map (fun t => (fst t, Some (snd (snd t)))) tps :: ys) (map snd tps ++ ps).
