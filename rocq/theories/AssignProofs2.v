(** Proofs about the error in assigned energy. *)
From Coq Require Import QArith Qabs Permutation Sorted.
From Verif Require Import Base TimeFrameModel TimeFrameSpec TimeFrameProofs StoreModel StoreSpec StoreProofs StoreProofs2 ResultsModel ResultsSpec ResultsProofs
  GoodSectionsModel GoodSectionsSpec EnergyModel EnergySpec EnergyProofs LoadFrames EnergyProofs2
  WholeModel WholeSpec WholeProofs GapsModel GapsSpec GapsProofs GapsProofs2 TopModel GStatsModel ShareModel ShareSpec ShareProofs ShareProofs2 AssignModel AssignSpec AssignProofs.
Import List. Open Scope Z_scope.

Lemma sums_energy msp (s : list (sample Z)) ms es : 0 <= msp -> Forall (StronglySorted slt) ms -> Forall2 (is_energy msp) ms es -> sumZ es = sums msp ms.
Proof.
  intros Hm HS H. unfold sums. f_equal. revert HS. induction H as [|p e ps es H H2 IH]; intros HS; [reflexivity|]. apply Forall_cons_iff in HS. destruct HS as [S1 S2]. cbn [map]. rewrite (IH S2). f_equal.
  symmetry. apply (is_energy_unique msp p); [|exact H]. apply joules_is_energy; [exact Hm|apply increasing_sorted; exact S1].
Qed.

Lemma rows_sorted window (s : list (sample Z)) sections ms : increasing s -> section_rows window s sections ms -> Forall (StronglySorted slt) ms.
Proof. intros Hi. unfold section_rows. induction 1 as [|t m l ms H HR IH]; constructor; [|exact IH]. exact (is_filter_sorted _ _ _ H (proj1 (increasing_sorted s) Hi)). Qed.

Lemma over_energy a msp s window sections ms es c :
  0 <= msp -> increasing s -> in_sequence sections -> section_rows window s sections ms -> Forall2 (is_energy msp) ms es -> (1 <= c)%nat ->
  (two_readings ms -> energies_over (power_meter a msp s) window sections c = Ok [(a, Some (inject_Z (sumZ es)))]) /\
  (~ two_readings ms -> energies_over (power_meter a msp s) window sections c = Ok []).
Proof.
  intros Hm Hi HF HR HE Hc. rewrite (over_value a msp s window sections ms c Hi HF HR Hc), (sums_energy msp s ms es Hm (rows_sorted _ _ _ _ Hi HR) HE).
  pose proof (has_two_spec ms) as K. destruct (has_two ms); (split; intros H; [try reflexivity|try reflexivity]).
  - destruct H. apply K. reflexivity.
  - apply K in H. discriminate.
Qed.

(** ** The good sections of the predictions, seen by another meter *)
Lemma long_concat_sorted {A} (ms : list (list (sample A))) : StronglySorted slt (concat ms) -> StronglySorted slt (concat (long_runs ms)).
Proof.
  induction ms as [|p ms IH]; intros H; [constructor|]. cbn [concat] in H. apply sorted_app in H. destruct H as (H1 & H2 & H3). unfold long_runs in *. cbn [filter].
  destruct (Nat.leb 2 (length p)); [|exact (IH H2)]. cbn [concat]. apply sorted_app. split; [exact H1|]. split; [exact (IH H2)|]. intros x y Hx Hy. apply H3; [exact Hx|].
  apply in_concat in Hy. destruct Hy as (q & Hq & Hy). apply filter_In in Hq. apply in_concat. exists q. tauto.
Qed.

Lemma first_last_le {A} (p : list (sample A)) f l : StronglySorted slt p -> (2 <= length p)%nat -> first_time p f -> last_time p l -> f < l.
Proof.
  intros HS L (x & r & -> & <-) (z & q & E & <-). destruct q as [|y q]; cbn in E.
  - injection E as -> ->. cbn in L. lia.
  - injection E as <- ->. apply StronglySorted_inv in HS. destruct HS as [_ HS]. rewrite Forall_forall in HS. apply HS. apply in_or_app. right. left. reflexivity.
Qed.
Lemma first_unique_time {A} (p : list (sample A)) f f' : first_time p f -> first_time p f' -> f = f'.
Proof. intros (x & r & -> & <-) (y & q & E & <-). injection E as <- _. reflexivity. Qed.

Lemma framed_seen {A B} (wt : tf) (truth : list (sample B)) : forall us (ps : list (list (sample A))),
  framed (map (map fst) ps) us -> Forall (fun p => (2 <= length p)%nat) ps -> StronglySorted slt (concat ps) -> leaves_all wt (concat ps) ->
  (forall lo, (forall x p, lo = Some x -> In p (concat ps) -> x <= fst p) -> follow_from lo us) /\
  (forall tm, during ps truth tm -> section_rows wt truth us tm).
Proof.
  intros us ps H. remember (map (map fst) ps) as tps eqn:E. revert ps E.
  assert (Hreq : forall f l b i, within wt f -> within wt l -> (requested wt (mkTF (Some f) (Some l) true false b) i <-> f <= i /\ (i < l \/ i = l /\ b = true))).
  { intros f l b i (W0 & W1 & _) (_ & _ & W2). unfold requested, inTFc. cbn [tf_empty tf_incl].
    change (tf_start (mkTF (Some f) (Some l) true false b)) with (Some f). change (tf_end (mkTF (Some f) (Some l) true false b)) with (Some l). split.
    - intros (_ & (_ & K1 & K2) & _). split; [exact (K1 f eq_refl)|]. specialize (K2 l eq_refl). tauto.
    - intros [K1 K2]. split; [exact W0|]. split; [split; [reflexivity|]; split; [intros ? [= <-]; exact K1|intros ? [= <-]; tauto]|]. split; [intros x Hx; specialize (W1 x Hx); lia|].
      intros x Hx. specialize (W2 x Hx). destruct (Z.eq_dec i x) as [->|N]; [right|left; lia]. split; [reflexivity|]. left. f_equal. lia. }
  assert (Hin : forall (p : list (sample A)) f l, first_time p f -> last_time p l -> leaves_all wt p -> within wt f /\ within wt l).
  { intros p f l (x & r & -> & <-) (z & q & Eq & <-) HA. split; [apply HA; left; reflexivity|]. apply HA. rewrite Eq. apply in_or_app. right. left. reflexivity. }
  assert (Hdur : forall (p : list (sample A)) f l (b : bool) (Q : Prop) m, first_time p f -> last_time p l -> leaves_all wt p -> (Q <-> b = true) ->
     (exists f l, first_time p f /\ last_time p l /\ is_filter (fun x => f <= fst x /\ (fst x < l \/ fst x = l /\ Q)) truth m) ->
     is_filter (fun r => requested wt (mkTF (Some f) (Some l) true false b) (fst r)) truth m).
  { intros p f l b Q m Hf Hl HA HQ (f' & l' & Hf' & Hl' & HF). rewrite (first_unique_time p f' f Hf' Hf), (last_time_unique p l' l Hl' Hl) in HF. destruct (Hin p f l Hf Hl HA) as [I1 I2].
    eapply is_filter_ext; [|exact HF]. intros x. cbv beta. rewrite (Hreq f l b (fst x) I1 I2). tauto. }
  induction H as [|tp f l F L|tp f l tps us N F L H IH]; intros ps E HL HS HA.
  - destruct ps; [|discriminate]. split; [intros; exact I|]. intros [|m tm] Hd; [constructor|destruct Hd].
  - destruct ps as [|p [|]]; try discriminate. injection E as ->. apply Forall_inv in HL. cbn [concat] in HS, HA. rewrite app_nil_r in HS, HA.
    apply map_fst_first in F. apply map_fst_last in L. pose proof (first_last_le p f l HS HL F L) as Hfl. split.
    + intros lo Hlo. exists f, l. split; [repeat split; exact Hfl|]. split; [|exact I]. intros x Hx. cbn [concat] in Hlo. rewrite app_nil_r in Hlo.
      destruct F as (y & r & -> & <-). apply (Hlo x y Hx). left. reflexivity.
    + intros [|m [|m2 tm]] Hd; [destruct Hd| |destruct Hd as [_ []]]. destruct Hd as [Hd _]. constructor; [|constructor].
      apply (Hdur p f l true ([] = @nil (list (sample A))) m F L HA); [split; reflexivity|exact Hd].
  - destruct ps as [|p ps]; [discriminate|]. injection E as -> ->. apply Forall_cons_iff in HL. destruct HL as [L1 L2]. cbn [concat] in HS, HA. apply sorted_app in HS. destruct HS as (S1 & S2 & S3).
    apply map_fst_first in F. apply map_fst_last in L. pose proof (first_last_le p f l S1 L1 F L) as Hfl.
    assert (HA1 : leaves_all wt p) by (intros r Hr; apply HA, in_or_app; left; exact Hr). assert (HA2 : leaves_all wt (concat ps)) by (intros r Hr; apply HA, in_or_app; right; exact Hr).
    destruct (IH ps eq_refl L2 S2 HA2) as [I1 I2]. split.
    + intros lo Hlo. exists f, l. split; [repeat split; exact Hfl|]. split.
      * intros x Hx. destruct F as (y & r & -> & <-). apply (Hlo x y Hx). left. reflexivity.
      * apply I1. intros x q [= <-] Hq. destruct L as (z & q0 & -> & <-). assert (slt z q) as K by (apply S3; [apply in_or_app; right; left; reflexivity|exact Hq]). unfold slt in K. lia.
    + intros [|m tm] Hd; [destruct Hd|]. destruct Hd as [Hd1 Hd2]. constructor; [|exact (I2 tm Hd2)].
      apply (Hdur p f l false (ps = []) m F L HA1); [|exact Hd1]. split; [intros ->; destruct (N eq_refl)|discriminate].
Qed.

(** ** The error *)
Lemma seen_sections a msp s m window ms last wt :
  0 <= msp -> increasing s -> rows_within window s m -> (2 <= length m)%nat -> row_runs msp m ms -> last_time m last -> ends_there msp s last -> leaves_all wt m ->
  exists us, (forall c, (1 <= c)%nat -> good_of (power_meter a msp s) window c = Ok us) /\
    (forall c, (1 <= c)%nat -> energies_over (power_meter a msp s) window us c = Ok (entry_of a (total msp ms) (pieces ms))) /\
    (forall b msp' truth tm c, increasing truth -> during (long_runs ms) truth tm -> (1 <= c)%nat ->
      energies_over (power_meter b msp' truth) wt us c = Ok (if has_two tm then [(b, Some (inject_Z (sums msp' tm)))] else [])).
Proof.
  intros Hm Hinc Hw L Hrr Hl He HA.
  destruct (good_framed present_all msp (map cell s) (map cell m) window (map (map cell) ms) last) as (us & Eg & En & HF & HN).
  - exact Hm.
  - apply (increasing_fst s); [apply cell_fst|exact Hinc].
  - apply complete_present, cell_complete.
  - apply within_map; [reflexivity|exact Hw].
  - rewrite map_length. exact L.
  - destruct Hrr as [E1 E2]. split; [rewrite <- E1; symmetry; apply concat_map|]. rewrite cell_fst, map_map.
    rewrite (map_ext (fun x => map fst (map cell x)) (map fst)) by (intros; apply cell_fst). exact E2.
  - destruct Hl as (z & q & -> & <-). exists (cell z), (map cell q). split; [rewrite map_app; reflexivity|reflexivity].
  - intros r Hr. apply in_map_iff in Hr. destruct Hr as (x & <- & Hx). exact (He x Hx).
  - assert (HF' : framed (map (map fst) (long_runs ms)) us).
    { rewrite long_map, map_map in HF. rewrite (map_ext (fun x => map fst (map cell x)) (map fst)) in HF by (intros; apply cell_fst). exact HF. }
    pose proof (runs_ne _ _ _ Hrr) as HN'.
    exists us. split; [exact Eg|]. split.
    + intros c Hc. rewrite (framed_energies a msp s m window ms us c Hinc Hw L (proj1 Hrr) HN' HF' En Hc). reflexivity.
    + intros b msp' truth tm c Hi Hd Hc.
      assert (HS : StronglySorted slt (concat ms)) by (rewrite (proj1 Hrr); exact (is_filter_sorted _ _ _ Hw (proj1 (increasing_sorted s) Hinc))).
      assert (HA' : leaves_all wt (concat (long_runs ms))).
      { intros r Hr. apply HA. rewrite <- (proj1 Hrr). apply in_concat in Hr. destruct Hr as (q & Hq & Hr). unfold long_runs in Hq. apply filter_In in Hq. apply in_concat. exists q. tauto. }
      destruct (framed_seen wt truth us (long_runs ms) HF' (long_long ms) (long_concat_sorted ms HS) HA') as [K1 K2].
      apply over_value; [exact Hi|apply K1; discriminate|exact (K2 tm Hd)|exact Hc].
Qed.

Lemma pieces_two {A} (ms : list (list (sample A))) : two_readings (cut_runs (long_runs ms)) <-> pieces ms <> [].
Proof.
  unfold pieces, two_readings. split.
  - intros (p & Hin & L) E. assert (In p (long_runs (cut_runs (long_runs ms)))) as K by (unfold long_runs at 1; apply filter_In; split; [exact Hin|apply Nat.leb_le; exact L]). rewrite E in K. destruct K.
  - intros H. destruct (long_runs (cut_runs (long_runs ms))) as [|p ps] eqn:E; [contradiction|]. exists p.
    assert (In p (long_runs (cut_runs (long_runs ms)))) as K by (rewrite E; left; reflexivity). unfold long_runs at 1 in K. apply filter_In in K. destruct K as [K1 K2]. split; [exact K1|]. apply Nat.leb_le. exact K2.
Qed.
Lemma entry_some {A} a e (ms : list (list (sample Z))) (ps : list A) : (ps <> []) -> match ps with [] => [] | _ => [(a, Some (inject_Z e))] end = [(a, Some (inject_Z e))] :> series.
Proof. intros H. destruct ps; [contradiction|reflexivity]. Qed.

Lemma during_sorted {A} (truth : list (sample Z)) : increasing truth -> forall (ps : list (list (sample A))) tm, during ps truth tm -> Forall (StronglySorted slt) tm.
Proof.
  intros Hi. induction ps as [|p ps IH]; intros [|m tm] Hd; try destruct Hd; [constructor|]. constructor; [|apply IH; assumption].
  destruct H as (f & l & _ & _ & HF). exact (is_filter_sorted _ _ _ HF (proj1 (increasing_sorted truth) Hi)).
Qed.

Lemma difference_same a x y : abs_difference [(a, Some x)] [(a, Some y)] = [(a, Some (Qabs (x - y)))].
Proof. destruct a; reflexivity. Qed.
Lemma difference_other a b x y : a <> b -> Forall (fun e => snd e = None) (abs_difference [(b, x)] [(a, y)]) /\ map fst (abs_difference [(b, x)] [(a, y)]) <> [].
Proof. intros H. destruct a, b, x, y; try contradiction; cbn; (split; [repeat constructor|discriminate]). Qed.

Lemma abs_inject x y : (Qabs (inject_Z x - inject_Z y) == inject_Z (Z.abs (x - y)))%Q.
Proof. unfold Qabs, Qminus, Qplus, Qopp, inject_Z, Qeq. cbn [Qnum Qden]. lia. Qed.

Lemma error_value a msp msp' pred truth m wp wt ms tm last c es es' :
  0 <= msp -> 0 <= msp' -> increasing pred -> increasing truth -> rows_within wp pred m -> (2 <= length m)%nat ->
  row_runs msp m ms -> last_time m last -> ends_there msp pred last -> leaves_all wt m -> during (long_runs ms) truth tm -> (1 <= c)%nat ->
  Forall2 (is_energy msp) (cut_runs (long_runs ms)) es -> Forall2 (is_energy msp') tm es' ->
  two_readings (cut_runs (long_runs ms)) -> two_readings tm ->
  exists q, assigned_error (power_meter a msp pred) wp (power_meter a msp' truth) wt c = Ok [(a, Some q)] /\ (q == inject_Z (Z.abs (sumZ es' - sumZ es)))%Q.
Proof.
  intros Hm Hm' Hip Hit Hw L Hrr Hl He HA Hd Hc H1 H2 T1 T2.
  destruct (seen_sections a msp pred m wp ms last wt Hm Hip Hw L Hrr Hl He HA) as (us & Eg & Ep & Et).
  unfold assigned_error. rewrite (Eg c Hc). cbn [bind]. rewrite (Et a msp' truth tm c Hit Hd Hc). cbn [bind]. rewrite (Ep c Hc). cbn [bind].
  rewrite (proj2 (has_two_spec tm) T2). unfold entry_of. apply pieces_two in T1. rewrite (entry_some a _ [] _ T1), difference_same.
  pose proof (cut_sorted _ (runs_sorted pred m wp msp ms Hip Hw Hrr)) as HS.
  rewrite (joules_total msp ms es Hm HS H1), (sums_energy msp' truth tm es' Hm' (during_sorted truth Hit _ _ Hd) H2).
  eexists. split; [reflexivity|]. apply abs_inject.
Qed.

Lemma error_types a b msp msp' pred truth m wp wt ms tm last c :
  a <> b -> 0 <= msp -> increasing pred -> increasing truth -> rows_within wp pred m -> (2 <= length m)%nat ->
  row_runs msp m ms -> last_time m last -> ends_there msp pred last -> leaves_all wt m -> during (long_runs ms) truth tm -> (1 <= c)%nat ->
  two_readings (cut_runs (long_runs ms)) -> two_readings tm ->
  exists e, assigned_error (power_meter a msp pred) wp (power_meter b msp' truth) wt c = Ok e /\ e <> [] /\ Forall (fun x => snd x = None) e.
Proof.
  intros Hab Hm Hip Hit Hw L Hrr Hl He HA Hd Hc T1 T2.
  destruct (seen_sections a msp pred m wp ms last wt Hm Hip Hw L Hrr Hl He HA) as (us & Eg & Ep & Et).
  unfold assigned_error. rewrite (Eg c Hc). cbn [bind]. rewrite (Et b msp' truth tm c Hit Hd Hc). cbn [bind]. rewrite (Ep c Hc). cbn [bind].
  rewrite (proj2 (has_two_spec tm) T2). unfold entry_of. apply pieces_two in T1. rewrite (entry_some a _ [] _ T1).
  eexists. split; [reflexivity|]. destruct (difference_other a b (Some (inject_Z (sums msp' tm))) (Some (inject_Z (total msp ms))) Hab) as [K1 K2].
  split; [intros E; rewrite E in K2; apply K2; reflexivity|exact K1].
Qed.

Lemma error_unread a b msp msp' pred truth m wp wt ms tm last c :
  0 <= msp -> increasing pred -> increasing truth -> rows_within wp pred m -> (2 <= length m)%nat ->
  row_runs msp m ms -> last_time m last -> ends_there msp pred last -> leaves_all wt m -> during (long_runs ms) truth tm -> (1 <= c)%nat ->
  two_readings (cut_runs (long_runs ms)) -> ~ two_readings tm ->
  assigned_error (power_meter a msp pred) wp (power_meter b msp' truth) wt c = Ok [(a, None)].
Proof.
  intros Hm Hip Hit Hw L Hrr Hl He HA Hd Hc T1 T2.
  destruct (seen_sections a msp pred m wp ms last wt Hm Hip Hw L Hrr Hl He HA) as (us & Eg & Ep & Et).
  unfold assigned_error. rewrite (Eg c Hc). cbn [bind]. rewrite (Et b msp' truth tm c Hit Hd Hc). cbn [bind]. rewrite (Ep c Hc). cbn [bind].
  destruct (has_two tm) eqn:E2; [destruct (T2 (proj1 (has_two_spec tm) E2))|]. unfold entry_of. apply pieces_two in T1. rewrite (entry_some a _ [] _ T1). destruct a; reflexivity.
Qed.

(** Perfect predictions. *)
Lemma energies_given x window sections c e : energies_over x window sections c = Ok e -> Forall (fun p => exists q, snd p = Some q) e.
Proof.
  unfold energies_over. destruct (energy_process _ _ _) as [d|]; [|discriminate]. cbn [bind]. intros [= <-].
  destruct (has_col _ d), (has_col _ d), (has_col _ d); cbn [List.app]; repeat (constructor; [eexists; reflexivity|]); constructor.
Qed.
Lemma error_perfect x window c e : assigned_error x window x window c = Ok e -> Forall (fun p => exists q, snd p = Some q /\ (q == 0)%Q) e.
Proof.
  unfold assigned_error. destruct (good_of x window c) as [us|]; [|discriminate]. cbn [bind]. destruct (energies_over x window us c) as [s|] eqn:E; [|discriminate]. cbn [bind]. intros H. apply (f_equal (fun r => match r with Ok y => y | Err _ => [] end)) in H. cbv beta iota in H. subst e.
  apply energies_given in E. rewrite Forall_forall. intros p Hp. unfold abs_difference in Hp. apply in_flat_map in Hp. destruct Hp as (a & _ & Hp).
  destruct (has_entry a s) eqn:Eh; [|destruct Hp]. destruct Hp as [<-|[]]. cbn [snd]. unfold has_entry in Eh. unfold entry. destruct (lookup a s) as [v|] eqn:El; [|discriminate].
  assert (exists q, v = Some q) as (q & ->).
  { clear -E El. induction s as [|[b w] s IH]; [discriminate|]. apply Forall_cons_iff in E. destruct E as [E1 E2]. cbn in El. destruct (ac_eqb _ _) in El; [injection El as <-; exact E1|exact (IH E2 El)]. }
  cbn [subtract_abs]. exists (Qabs (q - q)). split; [reflexivity|]. assert (Hq : (q - q == 0)%Q) by ring. rewrite Hq. reflexivity.
Qed.

(** Meters that report at the same times. *)
Lemma apart_fst x : forall y, map fst x = map fst y -> map fst (apart x y) = map fst x.
Proof. induction x as [|a x IH]; intros [|b y] E; try discriminate; [reflexivity|]. cbn [map apart fst] in *. injection E as E1 E2. f_equal. exact (IH y E2). Qed.
Lemma filter_apart window x mx : rows_within window x mx -> forall y my, map fst x = map fst y -> rows_within window y my -> rows_within window (apart x y) (apart mx my).
Proof.
  unfold rows_within. induction 1 as [|a l m Ha F IH|a l m Ha F IH]; intros [|b y] my E HF; try discriminate; cbn [map] in E.
  - inversion HF. constructor.
  - injection E as E1 E2. inversion HF; subst; [|rewrite E1 in Ha; contradiction]. cbn [apart]. constructor; [exact Ha|]. apply IH; assumption.
  - injection E as E1 E2. inversion HF; subst; [rewrite E1 in Ha; contradiction|]. cbn [apart]. constructor; [exact Ha|]. apply IH; assumption.
Qed.
Lemma dot_apart w : Forall (fun a => 0 <= a) w -> forall x y, map fst x = map fst y -> Z.abs (dot w (map snd y) - dot w (map snd x)) <= dot w (map snd (apart x y)).
Proof.
  induction 1 as [|a w Ha H IH]; intros [|p x] [|q y] E; try discriminate; try (cbn; lia). cbn [map] in E. injection E as _ E. cbn [map apart dot snd]. specialize (IH x y E). nia.
Qed.
Lemma ws_nonneg msp tms : 0 <= msp -> Forall (fun ts => gap_free msp ts /\ StronglySorted Z.lt ts) tms -> Forall (fun a => 0 <= a) (ws msp tms).
Proof. intros Hm H. pose proof (ws_le msp msp tms Hm H) as K. revert K. generalize (ws msp tms) at 1 3 as u. generalize (ws msp tms) as v. intros v u K. clear H. induction K as [|a b l l' [K1 _] K IH]; [constructor|]. constructor; [exact K1|exact IH]. Qed.

Lemma error_difference a msp pred truth m window ms ds last c ed :
  0 <= msp -> increasing pred -> map fst truth = map fst pred -> rows_within window pred m -> (2 <= length m)%nat ->
  row_runs msp m ms -> last_time m last -> ends_there msp pred last -> (1 <= c)%nat ->
  rows_within window (apart pred truth) (concat ds) -> same_times ds ms -> Forall2 (is_energy msp) (cut_runs (long_runs ds)) ed ->
  exists e, assigned_error (power_meter a msp pred) window (power_meter a msp truth) window c = Ok e /\
    Forall (fun x => exists q, snd x = Some q /\ (q <= inject_Z (sumZ ed))%Q) e.
Proof.
  intros Hm Hinc Et Hw L Hrr Hl He Hc Hwd Hsd HE.
  destruct (within_like window pred m Hw truth Et) as (m' & Hw' & Em).
  destruct (split_like ms m') as (ms' & Ec & Hs); [rewrite (proj1 Hrr); exact Em|].
  destruct (share_sections a msp pred m window ms last Hm Hinc Hw L Hrr Hl He) as (us & Eg & HEn).
  unfold assigned_error. rewrite (Eg c Hc). cbn [bind]. rewrite (HEn a msp truth m' ms' c Et Hw' Ec Hs Hc). cbn [bind]. rewrite (HEn a msp pred m ms c eq_refl Hw (proj1 Hrr) eq_refl Hc). cbn [bind].
  eexists. split; [reflexivity|]. unfold entry_of. destruct (pieces ms) as [|p ps]; [constructor|]. rewrite difference_same. constructor; [|constructor]. cbn [snd]. eexists. split; [reflexivity|].
  rewrite abs_inject. rewrite <- Zle_Qle.
  pose proof (cut_sorted _ (runs_sorted pred m window msp ms Hinc Hw Hrr)) as HS.
  rewrite (joules_total msp ds ed Hm (same_sorted _ _ (same_cut _ _ (same_long _ _ Hsd)) HS) HE).
  pose proof (runs_ne _ _ _ Hrr) as Hne.
  rewrite (total_dot msp ms' (same_ne _ _ Hs Hne)), (total_dot msp ms Hne), (total_dot msp ds (same_ne _ _ Hsd Hne)). rewrite Hs, Hsd, Ec, (proj1 Hrr).
  assert (Ed : concat ds = apart m m').
  { apply (is_filter_unique _ _ _ _ Hwd). apply filter_apart; [exact Hw|symmetry; exact Et|exact Hw']. }
  rewrite Ed. apply dot_apart; [|symmetry; exact Em]. apply ws_nonneg; [exact Hm|exact (runs_times msp pred m window ms Hinc Hw Hrr)].
Qed.
