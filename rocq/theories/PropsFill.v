(** C51, C52: resampled loading and the concatenation of power series. *)
From Coq Require Import QArith Sorted.
From Verif Require Import Base TopModel ResampleModel MetricsSpec FillSpec FillProofs.
Open Scope Z_scope.

(** C51. The result has one row for every bin from the first to the last sample, in order; a row's value is the
    mean of the bin's valid samples or, if there are none, that of the nearest earlier bin that has some, at
    most [limit] bins back; otherwise it is NaN. *)
Theorem C51_resample midnight p limit c o t0 t1 : 0 < p -> increasing c -> spans midnight c o t0 t1 ->
  increasing (safe_resample midnight p limit c) /\
  (forall t, In t (map fst (safe_resample midnight p limit c)) <-> bin_between o p t0 t1 t) /\
  (forall t v, In (t, Some v) (safe_resample midnight p limit c) -> filled c p limit t v) /\
  (forall t v, bin_between o p t0 t1 t -> filled c p limit t v -> exists v', In (t, Some v') (safe_resample midnight p limit c) /\ (v' == v)%Q).
Proof. exact (safe_resample_thm midnight p limit c o t0 t1). Qed.
Print Assumptions C51_resample.
(** With the limit that loading uses, no value is older than max_sample_period and one bin. *)
Theorem C51_not_stale midnight p m c o t0 t1 t v : 0 < p -> 0 <= m -> increasing c -> spans midnight c o t0 t1 ->
  In (t, Some v) (safe_resample midnight p (ffill_limit m p) c) -> exists s w, In (s, Some w) c /\ t - (m + p) < s < t + p.
Proof. exact (not_stale midnight p m c o t0 t1 t v). Qed.
Print Assumptions C51_not_stale.
(** Repeated time stamps: as if only the first row of each had been there. *)
Theorem C51_repeated midnight p limit c : not_decreasing c -> exists d, increasing d /\ safe_resample midnight p limit c = safe_resample midnight p limit d /\
  (forall x, In x d -> In x c) /\ (forall t, In t (map fst c) -> In t (map fst d)) /\
  (forall x, In x d -> exists a b, c = a ++ x :: b /\ ~ In (fst x) (map fst a)).
Proof. exact (keep_first_resample midnight p limit c). Qed.
Print Assumptions C51_repeated.
Example C51_case_empty midnight p limit : safe_resample midnight p limit [] = [].
Proof. exact (eq_refl []). Qed.

Example C51_case : safe_resample utc_midnight 6 (ffill_limit 10 6) [(6, Some 1%Q); (8, Some 3%Q); (31, None); (37, Some 4%Q)]
  = [(6, Some (4 / 2)%Q); (12, Some (4 / 2)%Q); (18, Some (4 / 2)%Q); (24, None); (30, None); (36, Some (4 / 1)%Q)].
Proof. reflexivity. Qed.
Example C51_case_hypotheses : increasing [(6, Some 1%Q); (8, Some 3%Q); (37, Some 4%Q)] /\ spans utc_midnight [(6, Some 1%Q); (8, Some 3%Q); (37, Some 4%Q)] 0 6 37.
Proof.
  split; [repeat constructor; cbn; lia|]. split; [exists (6, Some 1%Q), [(8, Some 3%Q); (37, Some 4%Q)]; auto|exists (37, Some 4%Q), [(6, Some 1%Q); (8, Some 3%Q)]; auto].
Qed.
Example C51_case_repeated : not_decreasing [(6, Some 1%Q); (6, Some 9%Q); (8, Some 3%Q)] /\ safe_resample utc_midnight 6 2 [(6, Some 1%Q); (6, Some 9%Q); (8, Some 3%Q)] = [(6, Some (4 / 2)%Q)].
Proof. split; [repeat constructor; cbn; lia|reflexivity]. Qed.

(** C52. Chunks that do not share a time stamp: everything is there, once, in order; None stands for no data. *)
Theorem C52_all_data cs : Forall increasing cs -> follows Z.lt (filter nonempty cs) ->
  match power_series_all_data cs with Some all => all = concat cs | None => concat cs = [] end.
Proof. exact (all_data_raw cs). Qed.
Print Assumptions C52_all_data.
(** Chunks in which the last time of one may be the first time of the next: every time stamp is there exactly
    once, with a row of one of the chunks. *)
Theorem C52_all_times cs : Forall increasing cs -> follows Z.le (filter nonempty cs) -> concat cs <> [] ->
  exists all, power_series_all_data cs = Some all /\ increasing all /\ (forall x, In x all -> In x (concat cs)) /\ (forall t, In t (map fst (concat cs)) -> In t (map fst all)).
Proof. exact (all_data_thm cs). Qed.
Print Assumptions C52_all_times.
(** That is the case for consecutive stretches of data that are resampled chunk by chunk, if all midnights are on
    the same grid. *)
Theorem C52_resampled_partial midnight p limit o cs : 0 < p -> cs <> [] -> Forall (fun c => c <> [] /\ increasing c) cs -> follows Z.lt cs ->
  (forall c x r, In c cs -> c = x :: r -> exists k, midnight (fst x) = o + k * p) ->
  exists all, power_series_all_data (map (safe_resample midnight p limit) cs) = Some all /\ increasing all /\
    (forall x, In x all -> exists c, In c cs /\ In x (safe_resample midnight p limit c)) /\
    (forall c t, In c cs -> In t (map fst (safe_resample midnight p limit c)) -> In t (map fst all)).
Proof. exact (all_data_resampled midnight p limit o cs). Qed.
Print Assumptions C52_resampled_partial.
(** A bin cut by a chunk boundary has the mean of its first part only. *)
Theorem C52_split_bin_refuted : exists c d, increasing (c ++ d) /\ follows Z.lt [c; d] /\
  safe_resample utc_midnight 6 1 (c ++ d) = [(0, Some (6 / 2)%Q)] /\
  power_series_all_data (map (safe_resample utc_midnight 6 1) [c; d]) = Some [(0, Some (1 / 1)%Q)].
Proof.
  exists [(1, Some 1%Q)], [(4, Some 5%Q)]. split; [repeat constructor; cbn; lia|]. split; [|split; reflexivity].
  constructor; [intros x y [<-|[]] [<-|[]]; cbn; lia|constructor].
Qed.
Print Assumptions C52_split_bin_refuted.
(** Of chunks that overlap by more than one row only one row is dropped. *)
Theorem C52_overlap_refuted : exists cs all, Forall increasing cs /\ power_series_all_data cs = Some all /\ ~ increasing all /\ ~ NoDup (map fst all).
Proof.
  exists [[(0, Some 1%Q); (1, Some 1%Q); (2, Some 1%Q)]; [(1, Some 1%Q); (2, Some 1%Q)]]. eexists. split; [repeat constructor; cbn; lia|]. split; [reflexivity|]. split.
  - intros H. inversion_clear H as [|x l H1 H2]. inversion_clear H1 as [|x l H3 H4]. inversion_clear H3 as [|x l H5 H6]. inversion_clear H6 as [|x l H7 H8]. cbn in H7. lia.
  - intros H. inversion_clear H as [|x l H1 H2]. inversion_clear H2 as [|x l H3 H4]. inversion_clear H4 as [|x l H5 H6]. apply H5. left. reflexivity.
Qed.
Print Assumptions C52_overlap_refuted.
Example C52_case : Forall increasing [[(0, Some 1%Q); (6, None)]; []; [(6, Some 2%Q); (12, Some 3%Q)]] /\ follows Z.le (filter nonempty [[(0, Some 1%Q); (6, None)]; []; [(6, Some 2%Q); (12, Some 3%Q)]]) /\
  power_series_all_data [[(0, Some 1%Q); (6, None)]; []; [(6, Some 2%Q); (12, Some 3%Q)]] = Some [(0, Some 1%Q); (6, None); (12, Some 3%Q)].
Proof.
  split; [repeat constructor; cbn; lia|]. split; [|reflexivity]. constructor; [|constructor]. intros x y [<-|[<-|[]]] [<-|[<-|[]]]; cbn; lia.
Qed.
Example C52_case_midnight : forall c x r, In c [[(86399, Some 1%Q)]; [(86401, Some 1%Q)]] -> c = x :: r -> exists k, utc_midnight (fst x) = 0 + k * 6.
Proof. intros c x r [<-|[<-|[]]] [= <- <-]; [exists 0|exists 14400]; reflexivity. Qed.
