(** C38: correlation between meters. *)
From Coq Require Import Reals Lra Psatz.
From Verif Require Import Base CorrModel CorrSpec CorrProofs.
Open Scope R_scope.

(** Two meters whose series are cut alike, have the same time stamps and no NaN: the
    result is NaN exactly if there are fewer than two samples or one of the series is
    constant (its deviation is 0), and otherwise Pearson's coefficient of the pairs. *)
Theorem C38_pearson_partial xs ys ps : aligned xs ys ps ->
  ((2 <= length ps)%nat -> forall r, correlation xs ys = CVal r <-> pearson ps r) /\
  (correlation xs ys = CNaN <-> (length ps < 2)%nat \/ deviation (map fst ps) = 0 \/ deviation (map snd ps) = 0).
Proof. exact (corr_pearson xs ys ps). Qed.
Print Assumptions C38_pearson_partial.

(** It then lies between -1 and 1. *)
Theorem C38_bounds_partial xs ys ps r : aligned xs ys ps -> correlation xs ys = CVal r -> -1 <= r <= 1.
Proof. exact (corr_bounds xs ys ps r). Qed.
Print Assumptions C38_bounds_partial.

(** It is symmetric. *)
Theorem C38_symmetric_partial xs ys ps : aligned xs ys ps -> correlation ys xs = correlation xs ys.
Proof. exact (corr_symmetric xs ys ps). Qed.
Print Assumptions C38_symmetric_partial.

(** It does not depend on how the two are cut into chunks, as long as both are cut alike. *)
Theorem C38_chunks_partial xs ys xs' ys' ps : aligned xs ys ps -> aligned xs' ys' ps -> correlation xs' ys' = correlation xs ys.
Proof. exact (corr_chunks xs ys xs' ys' ps). Qed.
Print Assumptions C38_chunks_partial.

(** A meter correlates perfectly with itself. *)
Theorem C38_self_partial xs ps : aligned xs xs ps -> (2 <= length ps)%nat -> 0 < deviation (map fst ps) -> correlation xs xs = CVal 1.
Proof. exact (corr_self xs ps). Qed.
Print Assumptions C38_self_partial.

(** Whatever the two series are, fewer than two samples in either give NaN. *)
Theorem C38_few xs ys : (length (concat xs) < 2)%nat \/ (length (concat ys) < 2)%nat -> correlation xs ys = CNaN.
Proof. exact (corr_few xs ys). Qed.
Print Assumptions C38_few.
Example C38_few_met : (length (concat [[(0%Z, Some 1); (1%Z, Some 2)]]) = 2 /\ length (concat [[(0%Z, Some 1)]]) < 2)%nat.
Proof. split; [reflexivity|]. cbn. apply Nat.lt_succ_diag_r. Qed.

(** Two meters over different spans: the result can exceed 1, and depends on the order. *)
Theorem C38_span_refuted : exists xs ys,
  Forall (fun c => c <> []) (xs ++ ys) /\ correlation xs ys = CVal 2 /\ correlation ys xs = CVal (/ 2).
Proof. exact corr_span. Qed.
Print Assumptions C38_span_refuted.

(** The same two series, cut differently: the result changes from 1 to 1/2. *)
Theorem C38_chunks_refuted : exists xs ys ys',
  concat ys = concat ys' /\ Forall (fun c => c <> []) (xs ++ ys ++ ys') /\ correlation xs ys = CVal 1 /\ correlation xs ys' = CVal (/ 2).
Proof. exact corr_cut. Qed.
Print Assumptions C38_chunks_refuted.

(** A time at which neither meter has a value (a gap that resampling has not filled) counts as a
    sample: two perfectly opposed meters get -4/5 in place of -1. *)
Theorem C38_gap_refuted : exists xs ys gx gy,
  correlation xs ys = CVal (-1) /\ gx = map (fun c => c ++ [(2%Z, None)]) xs /\ gy = map (fun c => c ++ [(2%Z, None)]) ys /\
  correlation gx gy = CVal (-(4 / 5)).
Proof. exact corr_gap. Qed.
Print Assumptions C38_gap_refuted.

(** Two chunks each. *)
Example C38_case : aligned [[(0%Z, Some 1); (1%Z, Some 2)]; [(2%Z, Some 4)]] [[(0%Z, Some 5); (1%Z, Some 3)]; [(2%Z, Some 7)]] [(1, 5); (2, 3); (4, 7)].
Proof. exact (al_cons [(0%Z, (1, 5)); (1%Z, (2, 3))] _ _ _ (al_cons [(2%Z, (4, 7))] _ _ _ al_nil)). Qed.
Example C38_case_varies : 0 < deviation (map fst [(1, 5); (2, 3); (4, 7)]) * deviation (map snd [(1, 5); (2, 3); (4, 7)]).
Proof. unfold deviation, mean, rsum. cbn. apply Rmult_lt_0_compat; nra. Qed.
