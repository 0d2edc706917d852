(** C43: the evaluation metrics. *)
From Coq Require Import QArith Qabs Reals Qreals Lqa.
From Verif Require Import Base TopModel ResampleModel MetricsModel MetricsSpec MetricsProofs MetricsProofs2 MetricsProofs3 ResampleProofs.
Open Scope Q_scope.

(** mae: not negative, 0 exactly for a right prediction, symmetric; refused exactly for
    empty series and series of different lengths. *)
Theorem C43_mae gt pred : (forall e, mae gt pred = Ok e -> 0 <= e /\ (e == 0 <-> same gt pred) /\ exists e', mae pred gt = Ok e' /\ e' == e) /\
  ((exists e, mae gt pred = Ok e) <-> length gt = length pred /\ gt <> []).
Proof. exact (mae_thm gt pred). Qed.
Print Assumptions C43_mae.

(** rmse: likewise, and never less than mae. *)
Theorem C43_rmse gt pred r : rmse gt pred = Ok r -> (0 <= r)%R /\ (r = 0%R <-> same gt pred) /\ exists e, mae gt pred = Ok e /\ (Q2R e <= r)%R.
Proof. exact (rmse_thm gt pred r). Qed.
Print Assumptions C43_rmse.

(** f1score: within [0,1], 1 exactly if both agree on when the appliance is on and it is on at some time, and symmetric. *)
Theorem C43_f1 gt pred f : f1score gt pred = Ok f -> 0 <= f <= 1 /\ (f == 1 <-> same_states gt pred /\ Exists on gt) /\ exists f', f1score pred gt = Ok f' /\ f' == f.
Proof. exact (f1score_thm gt pred f). Qed.
Print Assumptions C43_f1.

(** ... the harmonic mean of precision and recall. *)
Theorem C43_f1_harmonic ps tp fp fn : cases true true ps tp -> cases false true ps fp -> cases true false ps fn -> (0 < tp)%Z ->
  let precision := inject_Z tp / inject_Z (tp + fp) in let recall := inject_Z tp / inject_Z (tp + fn) in
  sklearn_f1 ps == 2 * precision * recall / (precision + recall).
Proof. exact (f1_harmonic ps tp fp fn). Qed.
Print Assumptions C43_f1_harmonic.

(** A right prediction of an appliance that is never on scores 0. *)
Theorem C43_f1_off_refuted : exists gt pred f, same gt pred /\ f1score gt pred = Ok f /\ f == 0.
Proof. exact f1_off. Qed.
Print Assumptions C43_f1_off_refuted.

(** relative_error, for predictions above -1. *)
Theorem C43_relative_partial gt pred : length gt = length pred -> gt <> [] -> Forall (fun p => -(1) < p) pred ->
  exists e, relative_error gt pred = Ok (Fin e) /\ 0 <= e /\ (e == 0 <-> same gt pred).
Proof. exact (relative_thm gt pred). Qed.
Print Assumptions C43_relative_partial.
(** Below -1 it is negative. *)
Theorem C43_relative_refuted : exists gt pred e, relative_error gt pred = Ok (Fin e) /\ e < 0.
Proof. exact relative_negative. Qed.
Print Assumptions C43_relative_refuted.

(** r2score never exceeds 1, and is 1 exactly for a right prediction. *)
Theorem C43_r2 gt pred : length gt = length pred -> (2 <= length gt)%nat -> exists r, r2score gt pred = Ok (Fin r) /\ r <= 1 /\ (r == 1 <-> same gt pred).
Proof. exact (r2_thm gt pred). Qed.
Print Assumptions C43_r2.

(** nde: if the truth is not all zero it is a non-negative number, 0 exactly for a right prediction; if
    it is all zero the result is NaN for the right prediction and infinite for any other. *)
Theorem C43_nde gt pred : length gt = length pred ->
  (~ Forall (fun x => x == 0) gt -> exists r, nde gt pred = Ok (RVal r) /\ (0 <= r)%R /\ (r = 0%R <-> same gt pred)) /\
  (Forall (fun x => x == 0) gt -> (same gt pred -> nde gt pred = Ok RNaN) /\ (~ same gt pred -> nde gt pred = Ok RInf)).
Proof. exact (nde_thm gt pred). Qed.
Print Assumptions C43_nde.

(** nep, if the true energy is positive. *)
Theorem C43_nep_partial gt pred : length gt = length pred -> 0 < qsum gt -> exists e, nep gt pred = Ok (Fin e) /\ 0 <= e /\ (e == 0 <-> same gt pred).
Proof. exact (nep_thm gt pred). Qed.
Print Assumptions C43_nep_partial.
(** A truth with a negative sum (a net exporter) gives a negative error. *)
Theorem C43_nep_refuted : exists gt pred e, nep gt pred = Ok (Fin e) /\ e < 0.
Proof. exact nep_negative. Qed.
Print Assumptions C43_nep_refuted.

(** rms_error_power over chunks: the root of the mean squared difference over the rows
    that have both values; NaN without such rows. *)
Theorem C43_rms cs : cs <> [] ->
  (both (concat cs) <> [] -> exists r, rms_error cs = Ok (RVal r) /\ (0 <= r)%R /\ (r * r = Q2R (mean_square (both (concat cs))))%R /\ (r = 0%R <-> Forall (fun p => fst p == snd p) (both (concat cs)))) /\
  (both (concat cs) = [] -> rms_error cs = Ok RNaN).
Proof. exact (rms_thm cs). Qed.
Print Assumptions C43_rms.
(** The result does not depend on how the rows are cut into chunks. *)
Theorem C43_rms_chunks cs cs' : cs <> [] -> cs' <> [] -> concat cs = concat cs' -> rms_error cs = rms_error cs'.
Proof. exact (rms_chunks cs cs'). Qed.
Print Assumptions C43_rms_chunks.
(** mean_normalized_error_power likewise, for a positive true energy. *)
Theorem C43_mne_partial cs : cs <> [] -> 0 < qsum (valid_of (map snd (concat cs))) ->
  exists e, mean_normalized_error cs = Ok (Fin e) /\ 0 <= e /\ (e == 0 <-> Forall (fun p => fst p == snd p) (both (concat cs))).
Proof. exact (mne_thm cs). Qed.
Print Assumptions C43_mne_partial.
Theorem C43_mne_chunks cs cs' : cs <> [] -> cs' <> [] -> concat cs = concat cs' -> exists x x', mean_normalized_error cs = Ok x /\ mean_normalized_error cs' = Ok x' /\ num_eq x x'.
Proof. exact (mne_chunks cs cs'). Qed.
Print Assumptions C43_mne_chunks.
(** A slave without data: not NaN but an exception. *)
Theorem C43_nothing_refuted midnight p slave master : (forall a b, slave a b = Some []) ->
  rms_error (fst (align_two_meters midnight p slave master)) = Err ZeroDivisionError /\ mean_normalized_error (fst (align_two_meters midnight p slave master)) = Err ZeroDivisionError.
Proof. exact (nothing_compared midnight p slave master). Qed.
Print Assumptions C43_nothing_refuted.

(** metrics.f1_score over chunks is within [0,1] ... *)
Theorem C43_f1_chunked nan cs : (exists c, In c cs /\ states c <> []) -> exists f, f1_score nan cs = Ok (Fin f) /\ 0 <= f <= 1.
Proof. exact (f1_chunked nan cs). Qed.
Print Assumptions C43_f1_chunked.
(** ... but depends on the chunks: the same right prediction scores 1 in one chunk and 1/2 in two. *)
Theorem C43_f1_chunks_refuted : exists cs cs', concat cs = concat cs' /\ Forall (fun p => fst p == snd p) (both (concat cs)) /\
  (forall nan, exists f, f1_score nan cs = Ok (Fin f) /\ f == 1) /\ (forall nan, exists f, f1_score nan cs' = Ok (Fin f) /\ f == 1 / 2).
Proof. exact f1_chunks. Qed.
Print Assumptions C43_f1_chunks_refuted.

(** fraction_energy_assigned_correctly: within [0,1], and 1 exactly if every predicted meter has its true
    share, provided that all energies are valid and not negative, neither total is 0 and
    every predicted meter exists. *)
Theorem C43_fraction_partial pred gt : proper pred -> proper gt -> incl (map e_id pred) (map e_id gt) ->
  exists f, fraction_energy_assigned_correctly pred gt = Ok (Fin f) /\ 0 <= f <= 1 /\
    (f == 1 <-> forall i p g, fraction_of pred i p -> fraction_of gt i g -> p == g).
Proof. exact (fraction_thm pred gt). Qed.
Print Assumptions C43_fraction_partial.
(** A prediction without any energy is scored as perfect. *)
Theorem C43_fraction_refuted : exists pred gt f, proper gt /\ map e_id pred = map e_id gt /\ total_energy pred == 0 /\
  fraction_energy_assigned_correctly pred gt = Ok (Fin f) /\ f == 1.
Proof. exact fraction_of_nothing. Qed.
Print Assumptions C43_fraction_refuted.

(** align_two_meters: what is compared for a master's chunk and the slave's data in it.  If both are resampled
    from the same midnight, the pairs are the means over the common bins, all of them. *)
Theorem C43_align_partial midnight p o c s : (0 < p)%Z -> sorted_times c -> sorted_times s -> origin_of midnight c o -> origin_of midnight s o ->
  (forall a b, In (a, b) (both (join (resample_mean midnight p c) (resample_mean midnight p s))) -> exists k, window_mean c (o + k * p) p a /\ window_mean s (o + k * p) p b) /\
  (forall k a b, window_mean c (o + k * p) p a -> window_mean s (o + k * p) p b -> exists a' b', In (a', b') (both (join (resample_mean midnight p c) (resample_mean midnight p s))) /\ a' == a /\ b' == b).
Proof. exact (join_thm midnight p o c s). Qed.
Print Assumptions C43_align_partial.
(** Every master's chunk is compared if all have at least two samples and the slave has
    data in each. *)
Theorem C43_align_all_partial midnight p slave master : Forall (fun c => (2 <= length c)%nat) master ->
  (forall c a b, In c master -> slave a b <> None /\ slave a b <> Some []) ->
  exists tables, align_two_meters midnight p slave master = (tables, None) /\ length tables = length master.
Proof. exact (align_all midnight p slave master). Qed.
Print Assumptions C43_align_all_partial.
(** A chunk with one sample ends the comparison: all that follows is ignored silently. *)
Theorem C43_align_short_refuted : exists slave x c, align_two_meters utc_midnight 6 slave [c] = ([[(Some (10 / 2), Some (10 / 2))]], None) /\
  align_two_meters utc_midnight 6 slave [[x]; c] = ([], None).
Proof. exact align_short. Qed.
Print Assumptions C43_align_short_refuted.
(** Bins that do not divide a day, and a slave whose data starts after midnight: the two meters agree at
    every common time stamp, yet not one bin is common. *)
Theorem C43_align_midnight_refuted : exists p c s, (0 < p)%Z /\ sorted_times c /\ sorted_times s /\ s = tl c /\ s <> [] /\ Forall (fun x => snd x <> None) c /\
  both (join (resample_mean utc_midnight p c) (resample_mean utc_midnight p s)) = [].
Proof. exact align_midnight. Qed.
Print Assumptions C43_align_midnight_refuted.

(** Cases that meet the hypotheses. *)
Example C43_case_mae : mae [1; 2; 30] [1; 4; 20] = Ok (12 / 3).
Proof. reflexivity. Qed.
Example C43_case_f1 : exists f, f1score [1; 20; 30] [1; 4; 20] = Ok f /\ f == 2 / 3.
Proof. eexists. split; [reflexivity|reflexivity]. Qed.
Example C43_case_rms : both (concat [[(Some 1, Some 2)]; [(None, Some 3); (Some 4, Some 4)]]) = [(1, 2); (4, 4)].
Proof. reflexivity. Qed.
Example C43_case_states : states [(Some 1, Some 0)] <> [].
Proof. discriminate. Qed.
Example C43_case_proper : proper [mkEmeter 1 [Some 3; None]; mkEmeter 2 [Some 1]].
Proof.
  split; [repeat constructor; cbn; intuition congruence|]. split; [|reflexivity]. intros m [<-|[<-|[]]]; eexists; (split; [reflexivity|discriminate]).
Qed.
Example C43_case_align : resample_mean utc_midnight 6 [(6%Z, Some 1); (8%Z, Some 3); (20%Z, None); (25%Z, Some 4)] = [(6%Z, Some (4 / 2)); (12%Z, None); (18%Z, None); (24%Z, Some (4 / 1))].
Proof. reflexivity. Qed.
Example C43_case_window : window_mean [(6%Z, Some 1); (8%Z, Some 3); (20%Z, None); (25%Z, Some 4)] 6 6 2.
Proof. split; [discriminate|reflexivity]. Qed.

(** [when_on] averaged over a period, as f1_score does: the period counts as on iff every reading in it, a
    missing one included, reaches the threshold. *)
Theorem C43_on_period : forall threshold c t p m, window_mean (when_on threshold c) t p m ->
  0 <= m <= 1 /\ (1 <= m <-> Forall (fun x => (t <= fst x < t + p)%Z -> exists v, snd x = Some v /\ threshold <= v) c).
Proof. exact on_period. Qed.
Print Assumptions C43_on_period.
Example C43_case_on : window_mean (when_on 10 [(6%Z, Some 12); (8%Z, Some 10); (13%Z, None)]) 6 6 1 /\ window_mean (when_on 10 [(6%Z, Some 12); (8%Z, Some 3)]) 6 6 (1 # 2).
Proof. split; (split; [discriminate|reflexivity]). Qed.
