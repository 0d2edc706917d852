From Coq Require Import QArith Lia Lqa Sorted Permutation.
From Verif Require Import Base TimeFrameModel TimeFrameSpec TimeFrameProofs SortLib ResultsModel ResultsSpec ResultsProofs
  StoreModel StoreSpec StoreProofs StoreProofs2 GoodSectionsModel GoodSectionsSpec GoodSectionsProofs GoodSectionsProofs2 GoodSectionsProofs3
  LoadFrames EnergyModel EnergySpec EnergyProofs EnergyProofs2 AvgModel AvgSpec.
Import List. Open Scope Z_scope.

(** ** Covered time *)
Lemma covered_cons2 msp a b r : covered msp (a :: b :: r) = (if b - a <=? msp then b - a else 0) + covered msp (b :: r).
Proof. reflexivity. Qed.
Lemma gaps_cons2 msp a b r : gaps msp (a :: b :: r) = (if b - a <=? msp then 0 else 1) + gaps msp (b :: r).
Proof. reflexivity. Qed.
Lemma covered_app msp r q : r <> [] -> q <> [] -> (forall x y, last_of r x -> first_of q y -> y - x > msp) ->
  covered msp (r ++ q) = covered msp r + covered msp q.
Proof.
  induction r as [|a r IH]; intros Hr Hq H; [contradiction|]. destruct r as [|b r].
  - destruct q as [|y q]; [contradiction|]. cbn [List.app]. rewrite covered_cons2.
    assert (y - a > msp) by (apply H; [now exists []|now exists q]). destruct (Z.leb_spec (y - a) msp); [lia|]. reflexivity.
  - cbn [List.app] in *. rewrite !covered_cons2, IH; [lia|discriminate|exact Hq|].
    intros x y [p Hp] Hy. apply H; [|exact Hy]. exists (a :: p). cbn. now rewrite <- Hp.
Qed.
Lemma covered_runs msp rs : Forall (fun r => r <> [] /\ gap_free msp r) rs -> separated msp rs ->
  covered msp (concat rs) = sumZ (map (covered msp) rs).
Proof.
  induction rs as [|r rs IH]; intros HF HS; [reflexivity|]. apply Forall_cons_iff in HF. destruct HF as [[Hr _] HF].
  destruct rs as [|q rs].
  - cbn [concat map sumZ]. rewrite app_nil_r. lia.
  - cbn [separated] in HS. destruct HS as [HS1 HS2]. specialize (IH HF HS2).
    change (concat (r :: q :: rs)) with (r ++ concat (q :: rs)). cbn [map sumZ] in *. rewrite covered_app; [lia|exact Hr| |].
    + apply Forall_cons_iff in HF. destruct HF as [[Hq _] _]. cbn [concat]. destruct q; [contradiction|discriminate].
    + intros x y Hx [p Hp]. apply HS1; [exact Hx|]. apply Forall_cons_iff in HF. destruct HF as [[Hq _] _].
      destruct q as [|z q]; [contradiction|]. cbn in Hp. injection Hp as -> _. now exists q.
Qed.
Lemma covered_gap_free msp r x y : gap_free msp r -> first_of r x -> last_of r y -> covered msp r = y - x.
Proof.
  revert x; induction r as [|a r IH]; intros x Hg [p Hp] Hl; [discriminate|]. injection Hp as -> ->.
  destruct p as [|b p].
  - destruct Hl as [q Hq]. destruct q as [|c q]; [injection Hq as ->; cbn; lia|]. destruct q; discriminate.
  - cbn [gap_free] in Hg. destruct Hg as [Hg1 Hg2]. rewrite covered_cons2. destruct (Z.leb_spec (b - x) msp); [|lia].
    rewrite (IH b Hg2).
    + lia.
    + now exists p.
    + destruct Hl as [q Hq]. destruct q as [|c q]; [discriminate|]. injection Hq as -> Hq. now exists q.
Qed.

(** ** Uptime of good sections *)
Definition td_of (t : tf) : Z := match tf_timedelta t with Some d => d | None => 0 end.
Lemma uptime_from_ok us : Forall (fun t => tf_timedelta t <> None) us -> forall acc, uptime_from acc us = Ok (acc + sumZ (map td_of us)).
Proof.
  induction us as [|t us IH]; intros H acc; cbn [uptime_from map sumZ]; [f_equal; lia|].
  apply Forall_cons_iff in H. destruct H as [H1 H2]. unfold td_of at 1. destruct (tf_timedelta t); [|contradiction].
  rewrite IH by exact H2. f_equal. lia.
Qed.
Lemma frames_uptime msp rs ts : frames_of_runs false false rs ts -> Forall (fun r => r <> [] /\ gap_free msp r) rs ->
  Forall (fun t => tf_end t <> None /\ tf_start t <> None) ts /\ sumZ (map td_of ts) = sumZ (map (covered msp) rs).
Proof.
  intros H. remember false as o eqn:Eo in H at 2. revert Eo. induction H as [o|o r rs t ts Hc Hf H IH|r rs ts Hl Hn H IH]; intros Eo HF.
  - split; [constructor|reflexivity].
  - subst o. apply Forall_cons_iff in HF. destruct HF as [[Hr Hg] HF]. destruct (IH eq_refl HF) as [I1 I2].
    destruct Hf as (F1 & F2 & F3 & (x & Hx & Ex) & Fe).
    assert (Fe' : exists y, last_of r y /\ tf_end t = Some y) by (destruct rs; exact Fe).
    destruct Fe' as (y & Hy & Ey).
    assert (Et : tf_timedelta t = Some (y - x)) by (unfold tf_timedelta; rewrite Ex, Ey; reflexivity).
    split; [constructor; [split; congruence|exact I1]|]. cbn [map sumZ]. rewrite I2. f_equal. unfold td_of. rewrite Et.
    symmetry. now apply covered_gap_free.
  - apply Forall_cons_iff in HF. destruct HF as [_ HF]. destruct (IH eq_refl HF) as [I1 I2]. split; [exact I1|].
    cbn [map sumZ]. rewrite I2. destruct r as [|x [|]]; try discriminate. cbn. lia.
Qed.
Lemma last_closed_td e ts us : last_closed e ts us -> Forall (fun t => tf_end t <> None /\ tf_start t <> None) ts ->
  Forall (fun t => tf_timedelta t <> None) us /\ map td_of us = map td_of ts.
Proof.
  induction 1 as [|t u H1 H2 H3 H4 H5|t ts us Hne H IH]; intros HF.
  - split; [constructor|reflexivity].
  - apply Forall_cons_iff in HF. destruct HF as [[F1 F2] _]. destruct (tf_end t) as [x|] eqn:Ex; [|contradiction].
    destruct (tf_start t) as [z|] eqn:Ez; [|contradiction].
    assert (E : tf_timedelta u = Some (x - z)) by (unfold tf_timedelta; rewrite H1, H2; reflexivity).
    assert (E' : tf_timedelta t = Some (x - z)) by (unfold tf_timedelta; rewrite Ex, Ez; reflexivity).
    split; [constructor; [congruence|constructor]|]. cbn [map]. unfold td_of. now rewrite E, E'.
  - apply Forall_cons_iff in HF. destruct HF as [[F1 F2] HF]. destruct (IH HF) as [I1 I2].
    split; [constructor; [|exact I1]|cbn [map]; now rewrite I2].
    unfold tf_timedelta. destruct (tf_end t); [|contradiction]. destruct (tf_start t); [discriminate|contradiction].
Qed.

(** ** Loading a whole meter *)
Lemma last_row {A} (rows : list (sample A)) x : last_opt (x :: rows) <> None.
Proof. revert x; induction rows as [|y rows IH]; intros x; [discriminate|]. cbn [last_opt]. apply IH. Qed.
Lemma sorted_le_last {A} (rows : list (sample A)) z : increasing rows -> last_opt rows = Some z -> forall r, In r rows -> fst r <= fst z.
Proof.
  intros Hi. apply increasing_sorted in Hi. induction rows as [|a [|b rows] IH]; intros Hz r Hr; [destruct Hr| |].
  - injection Hz as <-. destruct Hr as [<-|[]]. lia.
  - apply StronglySorted_inv in Hi. destruct Hi as [S1 S2]. destruct Hr as [<-|Hr]; [|now apply IH].
    apply (last_opt_in (b :: rows)) in Hz. rewrite Forall_forall in S2. specialize (S2 _ Hz). unfold slt in S2. lia.
Qed.
Lemma first_le {A} x (rows : list (sample A)) : increasing (x :: rows) -> forall r, In r (x :: rows) -> fst x <= fst r.
Proof.
  intros Hi r [<-|Hr]; [lia|]. apply increasing_sorted in Hi. apply StronglySorted_inv in Hi. destruct Hi as [_ S2].
  rewrite Forall_forall in S2. specialize (S2 _ Hr). unfold slt in S2. lia.
Qed.

Definition span (x z : Z) (b : bool) : tf := mkTF (Some x) (Some z) true false b.
Lemma first_last {A} (rows : list (sample A)) : (2 <= length rows)%nat -> exists x y r z, rows = x :: y :: r /\ last_opt rows = Some z.
Proof.
  destruct rows as [|x [|y r]]; cbn [length]; intros H; [lia|lia|]. destruct (last_opt (x :: y :: r)) as [z|] eqn:E; [|exfalso; exact (last_row (y :: r) x E)].
  exists x, y, r, z. split; [reflexivity|]. first [exact E|reflexivity].
Qed.
Lemma first_lt_last {A} (x y : sample A) r z : increasing (x :: y :: r) -> last_opt (x :: y :: r) = Some z -> fst x < fst z.
Proof.
  intros Hi Hz. assert (In z (y :: r)) by (apply (last_opt_in (y :: r)); exact Hz).
  apply increasing_sorted in Hi. apply StronglySorted_inv in Hi. destruct Hi as [_ S]. rewrite Forall_forall in S. exact (S _ H).
Qed.
Lemma whole_frame {A} (rows : list (sample A)) x z : hd_error rows = Some x -> last_opt rows = Some z -> fst x < fst z ->
  hdf_get_timeframe rows tf_cleared = Ok (span (fst x) (fst z) false) /\ default_section rows = Ok (span (fst x) (fst z) true).
Proof.
  intros Hx Hz Hlt. destruct rows as [|x' rows]; [discriminate|]. injection Hx as ->.
  assert (H : hdf_get_timeframe (x :: rows) tf_cleared = Ok (span (fst x) (fst z) false)).
  { assert (E1 : (fst z <=? fst x) = false) by lia. assert (E2 : (fst x >=? fst z) = false) by lia.
    unfold hdf_get_timeframe. rewrite Hz. unfold mk. cbn. rewrite E1. cbn. unfold intersection. cbn. rewrite E2. unfold mk_flags, mk. cbn. rewrite E1. cbn.
    unfold isect_incl. cbn. rewrite Z.eqb_refl. reflexivity. }
  split; [exact H|]. unfold default_section. rewrite H. reflexivity.
Qed.

Lemma filter_true {A} (f : A -> bool) l : Forall (fun x => f x = true) l -> filter f l = l.
Proof. induction 1 as [|x l H _ IH]; cbn; [reflexivity|]. rewrite H, IH. reflexivity. Qed.
Lemma whole_load {A} (rows : list (sample A)) x z n c : increasing rows -> (2 <= length rows)%nat -> hd_error rows = Some x -> last_opt rows = Some z ->
  (1 <= c)%nat ->
  exists cs, hdf_load rows tf_cleared [span (fst x) (fst z) true] n c = (cs, None) /\ delivers cs rows c /\
    chain (fst x) (map c_tf cs) (fst z).
Proof.
  intros Hi H2 Hx Hz Hc. destruct (first_last rows H2) as (x' & y & r & z' & -> & Hz').
  injection Hx as <-. rewrite Hz in Hz'. injection Hz' as <-. pose proof (first_lt_last x' y r z Hi Hz) as Hlt.
  assert (Hw : intersection tf_cleared (span (fst x') (fst z) true) = Ok (span (fst x') (fst z) true)).
  { unfold intersection. cbn. destruct (Z.geb_spec (fst x') (fst z)); [lia|]. unfold mk_flags, mk. cbn. rewrite (proj2 (Z.leb_gt (fst z) (fst x'))) by lia. cbn.
    unfold isect_incl. cbn. rewrite Z.eqb_refl. reflexivity. }
  assert (Hm : rows_of_period (span (fst x') (fst z) true) (x' :: y :: r) (x' :: y :: r)).
  { apply rows_of_period_filter. symmetry. apply filter_true. apply Forall_forall. intros q Hq. apply inTFcb_spec.
    pose proof (first_le x' (y :: r) Hi q Hq). pose proof (sorted_le_last _ z Hi Hz q Hq).
    split; [reflexivity|]. cbn. split; intros ? [= <-]; [lia|]. destruct (Z.eq_dec (fst q) (fst z)); [right; split; [reflexivity|assumption]|left; lia]. }
  destruct (section_bounded (x' :: y :: r) tf_cleared _ _ _ n c Hi Hc Hw eq_refl (or_introl (fun H : Some (fst x') = None => ltac:(discriminate H))) Hm)
    as (_ & _ & H). destruct (H H2) as (cs & E & D & s & e & C & CE1 & CE2).
  exists cs. split; [|split; [exact D|]].
  - cbn [hdf_load]. rewrite E. cbn. now rewrite ?app_nil_r.
  - cbn in CE1, CE2. destruct CE1 as [[= ->]|[? _]]; [|discriminate]. destruct CE2 as [[= ->]|[? _]]; [|discriminate]. exact C.
Qed.

(** ** Good sections and energy of a whole meter *)
Lemma complete_nan_free rows : all_present rows -> nan_free (map complete rows).
Proof.
  intros H. unfold nan_free. apply Forall_map. eapply Forall_impl; [|exact H]. intros r Hr. unfold complete. cbn [snd].
  apply forallb_forall. rewrite Forall_forall in Hr. intros o Ho. specialize (Hr _ Ho). destruct o; [reflexivity|contradiction].
Qed.
Lemma complete_times rows : map fst (map complete rows) = map fst rows.
Proof. rewrite map_map. reflexivity. Qed.
Lemma complete_increasing rows : increasing rows -> increasing (map complete rows).
Proof.
  induction rows as [|a [|b rows] IH]; intros H; [exact I|exact I|]. cbn [map increasing] in *. destruct H as [H1 H2]. split; [exact H1|]. now apply IH.
Qed.

Lemma whole_uptime rows msp c : 0 <= msp -> increasing rows -> (2 <= length rows)%nat -> all_present rows -> (1 <= c)%nat ->
  uptime_of (meter_good rows msp c) = Ok (covered msp (map fst rows)).
Proof.
  intros Hm Hi H2 Hp Hc. destruct (first_last rows H2) as (x & y & r & z & Er & Hz).
  assert (Hx : hd_error rows = Some x) by (subst; reflexivity).
  assert (Hlt : fst x < fst z) by (subst; eapply first_lt_last; eassumption).
  destruct (whole_frame rows x z Hx Hz Hlt) as [_ Hs].
  assert (Hi' := complete_increasing rows Hi).
  assert (H2' : (2 <= length (map complete rows))%nat) by (now rewrite map_length).
  assert (Hx' : hd_error (map complete rows) = Some (complete x)) by (subst; reflexivity).
  assert (Hz' : last_opt (map complete rows) = Some (complete z)) by (now rewrite last_opt_map, Hz).
  destruct (whole_load (map complete rows) _ _ 10 c Hi' H2' Hx' Hz' Hc) as (cs & E & D & C). cbn [complete fst] in E, C.
  assert (Hnan := complete_nan_free rows Hp).
  assert (HL : Forall (look_ahead_right (map complete rows) 10) cs).
  { apply Forall_forall. intros ch Hch. apply (load_look (map complete rows) tf_cleared [span (fst x) (fst z) true] 10 c); [rewrite E; exact Hch|].
    destruct D as (_ & _ & D). rewrite Forall_forall in D. specialize (D _ Hch). destruct (c_rows ch); [cbn in D; lia|discriminate]. }
  destruct (runs_exist msp (map fst rows)) as [rs Hrs]; [subst; discriminate|].
  assert (Hgo : ~ goes_on msp (map complete rows) (fst z)).
  { intros (q & Hq & _ & Hq2). pose proof (sorted_le_last _ _ Hi' Hz' q Hq) as Hle. cbn [complete fst] in Hle. lia. }
  destruct (chunks_combined msp (map complete rows) 10 cs (map complete rows) c (fst x) (fst z) (map fst rows) rs (fst z)) as (b & ts & us & B & F & L & G);
    try assumption; try lia.
  - subst; discriminate.
  - rewrite Forall_forall in HL |- *. intros ch Hch. apply (nan_free_usable (map complete rows) 10); [exact Hnan|lia|now apply HL|].
    destruct D as (_ & _ & D). rewrite Forall_forall in D. apply (D _ Hch).
  - intros HH. contradiction.
  - apply vt_spec. rewrite nan_free_vt by exact Hnan. now rewrite complete_times.
  - apply last_opt_last_of. rewrite last_opt_map, Hz. reflexivity.
  - assert (b = false) by (destruct b; [exfalso; apply Hgo, B; reflexivity|reflexivity]). subst b.
    destruct Hrs as (R1 & R2 & R3). destruct (frames_uptime msp rs ts F R2) as [F1 F2]. destruct (last_closed_td _ _ _ L F1) as [L1 L2].
    unfold uptime_of, meter_good. rewrite Hs. cbn [bind]. rewrite E, G. cbn [bind]. unfold uptime. rewrite uptime_from_ok by exact L1.
    f_equal. rewrite L2, F2, <- R1, covered_runs by assumption. lia.
Qed.

Lemma delivers_served {A} c (m : list (sample A)) cs : m <> [] -> delivers cs m c -> section_served c m cs.
Proof. intros H D. split; [contradiction|intros _; exact D]. Qed.
Lemma whole_energy columns rows msp a k s c : 0 <= msp -> increasing rows -> (2 <= length rows)%nat -> uses_column columns a Power k ->
  readings k rows s -> (1 <= c)%nat ->
  exists e, meter_energy columns rows msp a c = Ok (inject_Z e) /\ e = joules s msp.
Proof.
  intros Hm Hi H2 Hu Hr Hc. destruct (first_last rows H2) as (x & y & r & z & Er & Hz).
  assert (Hx : hd_error rows = Some x) by (subst; reflexivity).
  assert (Hlt : fst x < fst z) by (subst; eapply first_lt_last; eassumption).
  destruct (whole_frame rows x z Hx Hz Hlt) as [_ Hs].
  destruct (whole_load rows x z 0 c Hi H2 Hx Hz Hc) as (cs & E & D & C).
  exists (joules s msp). split; [|reflexivity]. unfold meter_energy. rewrite Hs. cbn [bind]. rewrite E.
  rewrite total_of_chunks; [|apply Forall_map, (chain_usable _ _ _ C)|exact (chain_no_overlap _ _ _ C)].
  cbn [bind]. do 2 f_equal.
  rewrite (map_ext _ (fun ch => part columns msp a (c_rows ch))) by (intros; apply part_chunk).
  assert (Hall : Forall (fun q => has_reading k q) rows).
  { clear -Hr. induction Hr as [|q p m s' [H1 H2] Hr IH]; constructor; [|exact IH]. unfold has_reading. rewrite (nth_error_nth _ _ None H2). discriminate. }
  rewrite (delivered_sum columns msp a (fun _ => 0) (has_reading k) c cs rows (part_power_app columns msp a k Hu)).
  - rewrite (part_uses _ _ _ _ _ _ Hu), (readings_rd k rows s Hr), dropna_some.
    assert (Z0 : forall l : list (chunk (list (option Z))), sumZ (map (fun ch => match c_rows ch with _ :: _ => 0 | [] => 0 end) l) = 0).
    { induction l as [|ch l IH]; cbn; [reflexivity|]. destruct (c_rows ch); exact IH. }
    rewrite Z0. lia.
  - apply delivers_served; [subst; discriminate|exact D].
  - apply Forall_forall. intros ch Hch q qs Eq. rewrite Forall_forall in Hall. apply Hall.
    assert (Hin : In ch cs) by (destruct cs; [destruct Hch|right; exact Hch]).
    assert (HLk : look_ahead_right rows 0 ch).
    { apply (load_look rows tf_cleared [span (fst x) (fst z) true] 0 c); [rewrite E; exact Hin|rewrite Eq; discriminate]. }
    destruct HLk as (pre & post & -> & _). apply in_or_app. right. apply in_or_app. left. rewrite Eq. left. reflexivity.
Qed.

(** ** The average *)
Lemma covered_nonneg msp l : increasing_times l -> 0 <= covered msp l.
Proof.
  induction l as [|a [|b r] IH]; intros H; [cbn; lia|cbn; lia|]. rewrite covered_cons2. cbn [increasing_times] in H. destruct H as [H1 H2].
  specialize (IH H2). destruct (b - a <=? msp); lia.
Qed.
Lemma times_increasing {A} (rows : list (sample A)) : increasing rows -> increasing_times (map fst rows).
Proof. induction rows as [|a [|b r] IH]; intros H; [exact I|exact I|]. cbn [map increasing_times increasing] in *. destruct H as [H1 H2]. split; [exact H1|now apply IH]. Qed.

Lemma div_div (e td p : Z) : 0 < td -> 0 < p -> (inject_Z e / (inject_Z td / inject_Z p) * inject_Z td == inject_Z e * inject_Z p)%Q.
Proof.
  intros H1 H2. assert (~ (inject_Z td == 0)%Q) by (unfold Qeq; cbn; lia). assert (~ (inject_Z p == 0)%Q) by (unfold Qeq; cbn; lia).
  field. split; assumption.
Qed.

Lemma average_uptime columns rows msp a k s c period : 0 <= msp -> increasing rows -> (2 <= length rows)%nat -> all_present rows ->
  uses_column columns a Power k -> readings k rows s -> (1 <= c)%nat -> 0 < period ->
  (covered msp (map fst rows) = 0 -> meter_average columns rows msp a c true period = Ok None) /\
  (covered msp (map fst rows) <> 0 -> exists e q, is_energy msp s e /\ e = joules s msp /\ meter_average columns rows msp a c true period = Ok (Some q) /\
     (q * inject_Z (covered msp (map fst rows)) == inject_Z e * inject_Z period)%Q).
Proof.
  intros Hm Hi H2 Hp Hu Hr Hc Hpos. unfold meter_average, average_energy. cbn [bind].
  rewrite whole_uptime by assumption. cbn [bind]. split; intros H0.
  - rewrite H0. reflexivity.
  - rewrite (proj2 (Z.eqb_neq _ _) H0). destruct (whole_energy columns rows msp a k s c) as (e & E & Ej); try assumption.
    rewrite E. cbn [bind]. exists e. eexists. split; [rewrite Ej; apply joules_is_energy; [exact Hm|]; exact (readings_increasing k rows s Hr Hi)|].
    split; [exact Ej|]. split; [reflexivity|].
    apply div_div; [|exact Hpos]. pose proof (covered_nonneg msp _ (times_increasing rows Hi)). lia.
Qed.

Lemma average_span columns rows msp a k s c period x z : 0 <= msp -> increasing rows -> (2 <= length rows)%nat ->
  uses_column columns a Power k -> readings k rows s -> (1 <= c)%nat -> 0 < period -> hd_error rows = Some x -> last_opt rows = Some z ->
  exists e q, is_energy msp s e /\ e = joules s msp /\ meter_average columns rows msp a c false period = Ok (Some q) /\
     (q * inject_Z (fst z - fst x) == inject_Z e * inject_Z period)%Q.
Proof.
  intros Hm Hi H2 Hu Hr Hc Hpos Hx Hz. destruct (first_last rows H2) as (x' & y & r & z' & Er & Hz').
  assert (x' = x) by (rewrite Er in Hx; now injection Hx). subst x'. rewrite Hz in Hz'. injection Hz' as <-.
  assert (Hlt : fst x < fst z) by (subst; eapply first_lt_last; eassumption).
  destruct (whole_frame rows x z Hx Hz Hlt) as [Hf _]. unfold meter_average, average_energy. cbn [bind]. rewrite Hf. cbn [bind tf_timedelta span].
  change (tf_timedelta (span (fst x) (fst z) false)) with (Some (fst z - fst x)).
  destruct (Z.eqb_spec (fst z - fst x) 0); [lia|]. destruct (whole_energy columns rows msp a k s c) as (e & E & Ej); try assumption.
  rewrite E. cbn [bind]. rewrite (proj2 (Z.eqb_neq _ _) n). exists e. eexists. split; [rewrite Ej; apply joules_is_energy; [exact Hm|]; exact (readings_increasing k rows s Hr Hi)|].
  split; [exact Ej|]. split; [reflexivity|]. apply div_div; lia.
Qed.

Lemma readings_times k rows s : readings k rows s -> map fst s = map fst rows.
Proof. induction 1 as [|r x m s [H1 H2] _ IH]; [reflexivity|]. cbn. now rewrite IH, H1. Qed.
Lemma joules_cons2 t v t' v' r msp : joules ((t, v) :: (t', v') :: r) msp = Z.min (t' - t) msp * v + joules ((t', v') :: r) msp.
Proof. reflexivity. Qed.
Lemma joules_level msp lo hi s : increasing s -> gaps msp (map fst s) = 0 -> Forall (fun x => lo <= snd x <= hi) s ->
  lo * covered msp (map fst s) <= joules s msp <= hi * covered msp (map fst s).
Proof.
  assert (G : forall l, 0 <= gaps msp l).
  { induction l as [|a [|b r] IH]; [cbn; lia|cbn; lia|]. rewrite gaps_cons2. destruct (b - a <=? msp); lia. }
  induction s as [|[t v] [|[t' v'] r] IH]; intros Hi Hg HF; [cbn; lia|cbn; lia|].
  rewrite joules_cons2. cbn [map fst] in *. rewrite covered_cons2. rewrite gaps_cons2 in Hg. specialize (G (t' :: map fst r)).
  apply Forall_cons_iff in HF. destruct HF as [Hv HF]. cbn [snd] in Hv. cbn [increasing fst] in Hi. destruct Hi as [H1 H2].
  destruct (Z.leb_spec (t' - t) msp) as [L|L]; [|lia]. specialize (IH H2 ltac:(lia) HF). rewrite Z.min_l by lia. nia.
Qed.
Lemma joules_constant msp P s : Forall (fun x => snd x = P) s -> joules s msp = P * (covered msp (map fst s) + msp * gaps msp (map fst s)).
Proof.
  induction s as [|[t v] [|[t' v'] r] IH]; intros HF; [cbn; lia|cbn; lia|].
  rewrite joules_cons2. cbn [map fst] in *. rewrite covered_cons2, gaps_cons2.
  apply Forall_cons_iff in HF. destruct HF as [Hv HF]. cbn [snd] in Hv. subst v. rewrite (IH HF).
  destruct (Z.leb_spec (t' - t) msp) as [L|L]; [rewrite Z.min_l by lia|rewrite Z.min_r by lia]; ring.
Qed.
Lemma joules_at_most msp P s x z : 0 <= msp -> 0 <= P -> increasing s -> Forall (fun r => snd r <= P) s -> hd_error s = Some x -> last_opt s = Some z ->
  joules s msp <= P * (fst z - fst x).
Proof.
  intros Hm HP. revert x; induction s as [|[t v] [|[t' v'] r] IH]; intros x Hi HF Hx Hz; [discriminate| |].
  - injection Hx as <-. injection Hz as <-. cbn. lia.
  - injection Hx as <-. rewrite joules_cons2. apply Forall_cons_iff in HF. destruct HF as [Hv HF]. cbn [snd] in Hv.
    cbn [increasing fst] in Hi. destruct Hi as [H1 H2]. specialize (IH _ H2 HF eq_refl Hz). cbn [fst] in *.
    assert (Z.min (t' - t) msp * v <= (t' - t) * P); [|lia].
    assert (0 <= Z.min (t' - t) msp <= t' - t) by lia. nia.
Qed.
Lemma hd_map {A B} (f : A -> B) l : hd_error (map f l) = option_map f (hd_error l).
Proof. destruct l; reflexivity. Qed.

Lemma average_level columns rows msp a k s c period lo hi : 0 <= msp -> increasing rows -> (2 <= length rows)%nat -> all_present rows ->
  uses_column columns a Power k -> readings k rows s -> (1 <= c)%nat -> 0 < period ->
  gaps msp (map fst rows) = 0 -> Forall (fun x => lo <= snd x <= hi) s ->
  exists q, meter_average columns rows msp a c true period = Ok (Some q) /\ (inject_Z (lo * period) <= q <= inject_Z (hi * period))%Q.
Proof.
  intros Hm Hi H2 Hp Hu Hr Hc Hpos Hg HF.
  assert (Hne : 0 < covered msp (map fst rows)).
  { destruct (first_last rows H2) as (x & y & r & z & -> & _). pose proof (times_increasing _ Hi) as T. cbn [map] in *.
    rewrite covered_cons2. rewrite gaps_cons2 in Hg. cbn [increasing_times] in T. destruct T as [T1 T2].
    pose proof (covered_nonneg msp (fst y :: map fst r) T2).
    assert (G : forall l, 0 <= gaps msp l).
    { induction l as [|a0 [|b r0] IH]; [cbn; lia|cbn; lia|]. rewrite gaps_cons2. destruct (b - a0 <=? msp); lia. }
    specialize (G (fst y :: map fst r)). destruct (fst y - fst x <=? msp); lia. }
  destruct (average_uptime columns rows msp a k s c period) as [_ H]; try assumption.
  destruct H as (e & q & _ & Ej & E & Eq); [lia|]. exists q. split; [exact E|].
  pose proof (readings_times k rows s Hr) as Ht.
  destruct (joules_level msp lo hi s (readings_increasing k rows s Hr Hi)) as [J1 J2]; [now rewrite Ht|exact HF|]. rewrite Ht, <- Ej in *.
  set (d := covered msp (map fst rows)) in *. assert (Hd : (0 < inject_Z d)%Q) by (unfold Qlt; cbn; lia).
  assert (K1 : (inject_Z (lo * period) * inject_Z d <= q * inject_Z d)%Q).
  { rewrite Eq, <- !inject_Z_mult, <- Zle_Qle. nia. }
  assert (K2 : (q * inject_Z d <= inject_Z (hi * period) * inject_Z d)%Q).
  { rewrite Eq, <- !inject_Z_mult, <- Zle_Qle. nia. }
  split; apply (Qmult_le_r _ _ (inject_Z d) Hd); assumption.
Qed.

Lemma average_constant columns rows msp a k s c period P : 0 <= msp -> increasing rows -> (2 <= length rows)%nat -> all_present rows ->
  uses_column columns a Power k -> readings k rows s -> (1 <= c)%nat -> 0 < period -> covered msp (map fst rows) <> 0 ->
  Forall (fun x => snd x = P) s ->
  exists q, meter_average columns rows msp a c true period = Ok (Some q) /\
    (q == inject_Z (P * period) * (1 + inject_Z (msp * gaps msp (map fst rows)) / inject_Z (covered msp (map fst rows))))%Q.
Proof.
  intros Hm Hi H2 Hp Hu Hr Hc Hpos Hne HF. destruct (average_uptime columns rows msp a k s c period) as [_ H]; try assumption.
  destruct (H Hne) as (e & q & _ & Ej & E & Eq). exists q. split; [exact E|].
  rewrite (joules_constant msp P s HF), (readings_times k rows s Hr) in Ej.
  set (d := covered msp (map fst rows)) in *. set (g := gaps msp (map fst rows)) in *. clearbody d g.
  assert (Hd : ~ (inject_Z d == 0)%Q) by (unfold Qeq; cbn; lia).
  apply (Qmult_inj_r _ _ (inject_Z d) Hd). rewrite Eq, Ej. rewrite !inject_Z_mult, inject_Z_plus, !inject_Z_mult. field. exact Hd.
Qed.

Lemma span_at_most columns rows msp a k s c period P x z : 0 <= msp -> increasing rows -> (2 <= length rows)%nat ->
  uses_column columns a Power k -> readings k rows s -> (1 <= c)%nat -> 0 < period -> 0 <= P -> Forall (fun x => snd x <= P) s ->
  hd_error rows = Some x -> last_opt rows = Some z ->
  exists e q, is_energy msp s e /\ meter_average columns rows msp a c false period = Ok (Some q) /\
     (q * inject_Z (fst z - fst x) == inject_Z e * inject_Z period)%Q /\ (q <= inject_Z (P * period))%Q.
Proof.
  intros Hm Hi H2 Hu Hr Hc Hpos HP HF Hx Hz. destruct (average_span columns rows msp a k s c period x z) as (e & q & He & Ej & E & Eq); try assumption.
  exists e, q. split; [exact He|]. split; [exact E|]. split; [exact Eq|].
  destruct (first_last rows H2) as (x' & y & r & z' & Er & Hz').
  assert (x' = x) by (rewrite Er in Hx; now injection Hx). subst x'. rewrite Hz in Hz'. injection Hz' as <-.
  assert (Hlt : fst x < fst z) by (rewrite Er in *; eapply first_lt_last; eassumption).
  pose proof (readings_times k rows s Hr) as Ht. pose proof (hd_map fst s) as Hh. pose proof (last_opt_map fst s) as Hl.
  rewrite Ht, hd_map, Hx in Hh. rewrite Ht, last_opt_map, Hz in Hl.
  destruct (hd_error s) as [x'|] eqn:Ex; [|discriminate]. destruct (last_opt s) as [z'|] eqn:Ez; [|discriminate]. cbn in Hh, Hl. injection Hh as Hh. injection Hl as Hl.
  pose proof (joules_at_most msp P s x' z' Hm HP (readings_increasing k rows s Hr Hi) HF Ex Ez) as J. rewrite <- Hh, <- Hl, <- Ej in J.
  set (d := fst z - fst x) in *. assert (Hd : (0 < inject_Z d)%Q) by (unfold Qlt; cbn; lia).
  apply (Qmult_le_r _ _ (inject_Z d) Hd). rewrite Eq, <- !inject_Z_mult, <- Zle_Qle. nia.
Qed.

(** ** Groups *)
Lemma sum_energy_ok ms es : Forall2 (fun m e => m_energy m = Ok e) ms es -> forall acc, exists q, sum_energy acc ms = Ok q /\ (q == acc + sumQ es)%Q.
Proof.
  induction 1 as [|m e ms es H _ IH]; intros acc; cbn [sum_energy sumQ fold_right].
  - exists acc. split; [reflexivity|ring].
  - rewrite H. cbn [bind]. destruct (IH (acc + e)%Q) as (q & E & Eq). exists q. split; [exact E|]. rewrite Eq. unfold sumQ. ring.
Qed.
Lemma group_energy_ok ms es : ms <> [] -> Forall2 (fun m e => m_energy m = Ok e) ms es -> exists q, group_energy ms = Ok q /\ (q == sumQ es)%Q.
Proof.
  intros Hne H. destruct H as [|m e ms es H HF]; [contradiction|]. cbn [group_energy]. rewrite H. cbn [bind].
  destruct (sum_energy_ok ms es HF e) as (q & E & Eq). exists q. split; [exact E|]. rewrite Eq. reflexivity.
Qed.
Lemma sumQ_div es d : (~ d == 0 -> sumQ (map (fun e => e / d) es) == sumQ es / d)%Q.
Proof.
  intros Hd. induction es as [|e es IH]; cbn [map sumQ fold_right]; [field; exact Hd|]. unfold sumQ in IH. rewrite IH. field. exact Hd.
Qed.
Lemma group_average_sum ms u es period : ms <> [] -> u <> 0 -> 0 < period -> Forall2 (fun m e => measures m u e) ms es ->
  exists q qs, group_average ms period = Ok (Some q) /\
    Forall2 (fun m x => average_energy false true (m_good m) (Err AttributeError) (m_energy m) period = Ok (Some x)) ms qs /\ (q == sumQ qs)%Q.
Proof.
  intros Hne Hu Hp HF. set (d := (inject_Z u / inject_Z period)%Q).
  assert (Hd : ~ (d == 0)%Q).
  { unfold d. intros E. assert (A : ~ (inject_Z u == 0)%Q) by (unfold Qeq; cbn; lia). assert (B : ~ (inject_Z period == 0)%Q) by (unfold Qeq; cbn; lia).
    apply A. rewrite <- (Qmult_div_r (inject_Z u) _ B). rewrite E. ring. }
  destruct (group_energy_ok ms es Hne) as (t & Et & Eqt).
  { clear -HF. induction HF as [|m e ms es [_ H] _ IH]; constructor; assumption. }
  exists (t / d)%Q, (map (fun e => e / d)%Q es). split; [|split].
  - unfold group_average, average_energy. destruct ms as [|m ms]; [contradiction|]. inversion HF as [|? e ? ? [U _] ?]; subst. cbn [group_good]. rewrite U. cbn [bind].
    rewrite (proj2 (Z.eqb_neq _ _) Hu), Et. reflexivity.
  - clear -HF Hu. induction HF as [|m e ms es [U H] _ IH]; [constructor|]. constructor; [|exact IH].
    unfold average_energy. rewrite U. cbn [bind]. rewrite (proj2 (Z.eqb_neq _ _) Hu), H. reflexivity.
  - rewrite sumQ_div by exact Hd. rewrite Eqt. reflexivity.
Qed.
(* the first meter's uptime decides for the whole group *)
Lemma group_average_first ms u period q : uptime_of (group_good ms) = Ok u -> 0 < period -> 0 < u -> group_average ms period = Ok (Some q) ->
  exists e, group_energy ms = Ok e /\ (q * inject_Z u == e * inject_Z period)%Q.
Proof.
  intros U Hp Hu. unfold group_average, average_energy. rewrite U. cbn [bind]. destruct (Z.eqb_spec u 0); [lia|].
  destruct (group_energy ms) as [e|x]; [|discriminate]. cbn [bind]. intros [= <-]. exists e. split; [reflexivity|].
  assert (A : ~ (inject_Z u == 0)%Q) by (unfold Qeq; cbn; lia). assert (B : ~ (inject_Z period == 0)%Q) by (unfold Qeq; cbn; lia). field. split; assumption.
Qed.

(** ** The calendar *)
Lemma day_number_late y m : 3 <= m <= 12 -> day_number y m = 365 * y + y / 4 - y / 100 + y / 400 + ((m - 3) * 306 + 5) / 10.
Proof.
  intros H. unfold day_number. assert (E : (m + 9) mod 12 = m - 3) by (Z.to_euclidean_division_equations; lia). rewrite E.
  assert (E2 : (m - 3) / 10 = 0) by (Z.to_euclidean_division_equations; lia). rewrite E2, Z.sub_0_r. reflexivity.
Qed.
Lemma day_number_early y m : 1 <= m <= 2 -> day_number y m = 365 * (y - 1) + (y - 1) / 4 - (y - 1) / 100 + (y - 1) / 400 + ((m + 9) * 306 + 5) / 10.
Proof.
  intros H. unfold day_number. assert (E : (m + 9) mod 12 = m + 9) by (Z.to_euclidean_division_equations; lia). rewrite E.
  assert (E2 : (m + 9) / 10 = 1) by (Z.to_euclidean_division_equations; lia). rewrite E2. reflexivity.
Qed.
Lemma month_length y m : 1 <= m <= 12 ->
  days_in_month y m = day_number (fst (month_after (y, m))) (snd (month_after (y, m))) - day_number y m.
Proof.
  intros H. assert (C : m = 1 \/ m = 2 \/ m = 12 \/ 3 <= m <= 11) by lia. unfold month_after. cbn [fst snd]. destruct C as [->|[->|[->|C]]].
  - cbn [Z.eqb Pos.eqb fst snd]. rewrite !day_number_early by lia. change (days_in_month y 1) with 31. Z.to_euclidean_division_equations; lia.
  - cbn [Z.eqb Pos.eqb fst snd]. rewrite (day_number_early y 2), (day_number_late y (2 + 1)) by lia. unfold days_in_month, leap. cbn [Z.eqb Pos.eqb].
    change (((2 + 9) * 306 + 5) / 10) with 337. change (((2 + 1 - 3) * 306 + 5) / 10) with 0.
    assert (K4 : y / 4 - (y - 1) / 4 = if y mod 4 =? 0 then 1 else 0) by (destruct (y mod 4 =? 0) eqn:E; Z.to_euclidean_division_equations; lia).
    assert (K100 : y / 100 - (y - 1) / 100 = if y mod 100 =? 0 then 1 else 0) by (destruct (y mod 100 =? 0) eqn:E; Z.to_euclidean_division_equations; lia).
    assert (K400 : y / 400 - (y - 1) / 400 = if y mod 400 =? 0 then 1 else 0) by (destruct (y mod 400 =? 0) eqn:E; Z.to_euclidean_division_equations; lia).
    assert (I1 : y mod 100 = 0 -> y mod 4 = 0) by (intros; Z.to_euclidean_division_equations; lia).
    assert (I2 : y mod 400 = 0 -> y mod 100 = 0) by (intros; Z.to_euclidean_division_equations; lia).
    destruct (y mod 4 =? 0) eqn:E4, (y mod 100 =? 0) eqn:E100, (y mod 400 =? 0) eqn:E400; cbn [negb andb orb] in *; lia.
  - cbn [Z.eqb Pos.eqb fst snd]. rewrite (day_number_early (y + 1) 1), (day_number_late y 12) by lia. change (days_in_month y 12) with 31.
    replace (y + 1 - 1) with y by lia. Z.to_euclidean_division_equations; lia.
  - replace (m =? 12) with false by lia. cbn [fst snd]. rewrite !day_number_late by lia. unfold days_in_month. replace (m =? 2) with false by lia.
    assert (D : m = 3 \/ m = 4 \/ m = 5 \/ m = 6 \/ m = 7 \/ m = 8 \/ m = 9 \/ m = 10 \/ m = 11) by lia.
    destruct D as [->|[->|[->|[->|[->|[->|[->|[->| ->]]]]]]]]; cbn [Z.eqb Pos.eqb orb]; Z.to_euclidean_division_equations; lia.
Qed.
Lemma month_exact today : 1 <= d_month today <= 12 ->
  let next := month_after (d_year today, d_month today) in let after := month_after next in
  alias_seconds Month today = 86400 * (day_number (fst after) (snd after) - day_number (fst next) (snd next)).
Proof.
  intros H next after. unfold alias_seconds. change day with 86400. f_equal. subst after.
  assert (En : next = if d_month today =? 12 then (d_year today + 1, 1) else (d_year today, d_month today + 1)) by reflexivity.
  destruct (d_month today =? 12) eqn:E; rewrite En; cbn [fst snd]; apply month_length; lia.
Qed.
