(** Metadata of several buildings. *)
From Coq Require Import String QArith Sorted.
From Verif Require Import Base TimeFrameModel TimeFrameSpec LcoModel LcoSpec LcoProofs LcoProofs2 LfhModel LfhSpec LfhProofs LfhProofs2 LfhProofs3.
Import List.
Open Scope list_scope.
Open Scope nat_scope.

Lemma describes_meta b frame ms : NoDup (map number ms) -> ~ In 1%Z (map number ms) -> describes b frame (fun m => In m ms) (building_meta b frame ms).
Proof.
  intros ND H1. unfold describes, building_meta. cbn [b_meters b_apps].
  destruct (meters_meta b frame ms [(1%Z, mk_mmeta true None (b, 1%Z) None frame)]) as [K1 K2]; [exact ND|].
  split; [rewrite K2 by exact H1; reflexivity|]. split; [|split].
  - intros x Hx. specialize (K1 _ Hx). unfold submeter_meta in K1 at 2.
    destruct (m_name x) as [[|]|] eqn:En; (eexists; split; [|exact K1]); auto.
  - intros i Hi Hin. rewrite K2.
    + unfold get_meta. cbn [find fst]. destruct (i =? 1)%Z eqn:Ei; [lia|reflexivity].
    + intros K. apply in_map_iff in K. destruct K as (m & E & Hm). exact (Hin m Hm E).
  - intros x. rewrite in_flat_map. split.
    + intros (y & Hy & Hx). apply in_map_iff in Hx. destruct Hx as (a & <- & Ha). exists y, a. auto.
    + intros (y & a & Hy & Ha & ->). exists y. split; [exact Hy|]. apply in_map_iff. exists a. auto.
Qed.

Lemma first_total subs t : Forall (fun m => m_apps m <> []) subs -> exists target, first_of subs t target.
Proof.
  induction 1 as [|m subs N F IH]; [exists None; right; split; [reflexivity|constructor]|]. destruct (m_apps m) as [|a rest] eqn:Ea; [contradiction|].
  destruct (String.eqb_spec (ap_type a) t) as [Et|Et].
  - exists (Some (number m)). left. exists [], m, a, rest, subs. repeat split; auto.
  - destruct IH as (target & [(l1 & m' & a' & r' & l2 & -> & E1 & E2 & -> & F1)|[-> F1]]).
    + exists (Some (number m')). left. exists (m :: l1), m', a', r', l2. repeat split; auto. constructor; [exists a, rest; auto|exact F1].
    + exists None. right. split; [reflexivity|]. constructor; [exists a, rest; auto|exact F1].
Qed.

(** The first meter determines the type. *)
Lemma first_type {S} (bd : building S) t z : numbered bd -> first_of (bd_subs bd) t (Some z) ->
  exists m a rest, In m (bd_subs bd) /\ number m = z /\ m_apps m = a :: rest /\ ap_type a = t.
Proof.
  intros _ [(l1 & m & a & rest & l2 & E & E1 & E2 & [= ->] & F1)|[H _]]; [|discriminate]. exists m, a, rest. rewrite E. split; [apply in_or_app; right; left; reflexivity|auto].
Qed.

Lemma number_inj {S} (bd : building S) m m' : numbered bd -> In m (bd_subs bd) -> In m' (bd_subs bd) -> number m = number m' -> m = m'.
Proof.
  intros (ND & _) H1 H2 E. apply In_nth_error in H1, H2. destruct H1 as [i Hi], H2 as [j Hj].
  assert (i = j).
  { apply (proj1 (NoDup_nth_error _) ND); [rewrite map_length; apply nth_error_Some; congruence|]. rewrite !nth_error_map, Hi, Hj. cbn. congruence. }
  subst j. congruence.
Qed.

Lemma meters_chosen {S} (bd : building S) : numbered bd -> Forall (fun m => m_apps m <> [] /\ number m <> (-1)%Z) (bd_subs bd) ->
  forall apps acc done, NoDup (done ++ apps) -> NoDup (map number acc) -> (forall m, In m acc <-> chosen bd done m) ->
  exists ms, meters_of bd apps acc = (ms, None) /\ NoDup (map number ms) /\ forall m, In m ms <-> chosen bd (done ++ apps) m.
Proof.
  intros HNb HN. assert (HN' : Forall (fun m => m_apps m <> []) (bd_subs bd)) by (eapply Forall_impl; [|exact HN]; cbn; tauto).
  induction apps as [|t apps IH]; intros acc done ND NA HA; cbn [meters_of].
  { exists acc. rewrite app_nil_r. auto. }
  destruct (first_total _ t HN') as (target & HF). destruct (first_found _ _ _ HF) as [E K]. rewrite E.
  assert (Es : done ++ t :: apps = (done ++ [t]) ++ apps) by (rewrite <- app_assoc; reflexivity).
  assert (Ht : ~ In t done) by (intros H; apply NoDup_remove_2 in ND; apply ND; apply in_or_app; left; exact H).
  destruct target as [z|].
  - destruct (first_type bd t z HNb HF) as (m & a & rest & Hm & Hz & Ea & Et). assert (Nz : z <> (-1)%Z) by (rewrite Forall_forall in HN; destruct (HN m Hm); congruence).
    destruct (Z.eqb_spec z (-1)); [contradiction|]. rewrite <- Hz. rewrite (proj2 (proj2 HNb) m Hm).
    destruct (IH (acc ++ [m]) (done ++ [t])) as (ms & E1 & E2 & E3).
    + rewrite <- Es. exact ND.
    + rewrite map_app. cbn [map]. apply NoDup_Add with (a := number m) (l := map number acc); [|split; [exact NA|]].
      * pose proof (Add_app (number m) (map number acc) []) as P. rewrite app_nil_r in P. exact P.
      * intros H. apply in_map_iff in H. destruct H as (m' & En & Hm'). apply HA in Hm'. destruct Hm' as (Hs & t' & Ht' & F'). rewrite En in F'.
        destruct (first_type bd t' _ HNb F') as (m2 & a2 & r2 & Hm2 & Hz2 & Ea2 & Et2). rewrite (number_inj bd m2 m HNb Hm2 Hm Hz2) in Ea2. apply Ht. congruence.
    + intros m'. rewrite in_app_iff, HA. unfold chosen. split.
      * intros [(H1 & t' & H2 & H3)|[<-|[]]]; [split; [exact H1|]; exists t'; split; [apply in_or_app; left; exact H2|exact H3]|].
        split; [exact Hm|]. exists t. split; [apply in_or_app; right; left; reflexivity|]. rewrite Hz. exact HF.
      * intros (H1 & t' & H2 & H3). apply in_app_or in H2. destruct H2 as [H2|[<-|[]]]; [left; split; [exact H1|]; exists t'; auto|]. right. left.
        destruct (first_found _ _ _ H3) as [E' _]. rewrite E in E'. injection E' as E'. apply (number_inj bd m m' HNb Hm H1). congruence.
    + exists ms. rewrite Es. auto.
  - cbn [Z.eqb]. change (-1 =? -1)%Z with true. cbv iota. destruct (IH acc (done ++ [t])) as (ms & E1 & E2 & E3).
    + rewrite <- Es. exact ND.
    + exact NA.
    + intros m'. rewrite HA. unfold chosen. split.
      * intros (H1 & t' & H2 & H3). split; [exact H1|]. exists t'. split; [apply in_or_app; left; exact H2|exact H3].
      * intros (H1 & t' & H2 & H3). apply in_app_or in H2. destruct H2 as [H2|[<-|[]]]; [split; [exact H1|]; exists t'; auto|].
        destruct (first_found _ _ _ H3) as [E' _]. rewrite E in E'. injection E' as E'. rewrite Forall_forall in HN. destruct (HN m' H1) as [_ N]. congruence.
    + exists ms. rewrite Es. auto.
Qed.

Lemma describes_iff b frame P P' bm : (forall m, P m <-> P' m) -> describes b frame P bm -> describes b frame P' bm.
Proof.
  intros H (H1 & H2 & H3 & H4). split; [exact H1|]. split; [intros m Hm; apply H2, H, Hm|]. split.
  - intros i Hi K. apply H3; [exact Hi|]. intros m Hm. apply K, H, Hm.
  - intros x. rewrite H4. split; intros (m & a & K1 & K2 & K3); exists m, a; (split; [apply H; exact K1|auto]).
Qed.

Lemma across_meta {S} predict (ds : Z -> option (building S)) (s : S) p apps : (0 <= p)%Z -> NoDup apps -> forall bs f kw cols st, learnt f -> f_apps f = Some apps -> NoDup bs ->
  asked_period (k_resample kw) (k_period kw) p -> k_sections kw = Some s ->
  (forall b, In b bs -> exists bd targets chs, ds b = Some bd /\ numbered bd /\ prepared predict f s p st b bd targets chs) ->
  exists ms st', f_across predict ds bs f kw cols st = (ms, st', None) /\
    (forall b bd chs, In b bs -> ds b = Some bd -> mn_power (bd_mains bd) s p = (chs, None) ->
       match filter is_long chs with
       | [] => get_meta b (st_buildings st') = get_meta b (st_buildings st)
       | first :: rest => exists last bm, last_opt (first :: rest) = Some last /\ get_meta b (st_buildings st') = Some bm /\
           describes b (tf_start (ch_frame first), tf_end (ch_frame last)) (chosen bd apps) bm
       end) /\
    (forall b, ~ In b bs -> get_meta b (st_buildings st') = get_meta b (st_buildings st)).
Proof.
  intros Hp NDa. induction bs as [|b bs IH]; intros f kw cols st HL Hap ND HK HS HB; cbn [f_across].
  { exists (f_meters f), st. split; [reflexivity|]. split; [intros b bd chs []|reflexivity]. }
  apply NoDup_cons_iff in ND. destruct ND as [Nb ND]. destruct (HB b (or_introl eq_refl)) as (bd & targets & chs & Ed & HNb & HP). rewrite Ed.
  pose proof HP as ((g & Hg) & Hpw & HN & HI & HT & HA & (name & HR) & HBd & HO).
  rewrite (pre_checks_ok f kw (proj1 HL)). cbn [bind]. rewrite Hg. cbn [bind]. pose proof (defaults_ok kw p g HK) as D. cbv zeta in D. rewrite D, HS. clear D.
  rewrite Hap. destruct (meters_chosen bd HNb HN apps [] [] NDa) as (ms & Ems & Nms & Hms); [constructor|intros m; split; [intros []|intros (_ & t & [] & _)]|].
  rewrite Ems. cbn [List.app] in Hms. unfold power. cbn [k_sections k_period]. rewrite Hpw. cbn [fst snd period_of k_period].
  assert (HT' : Forall2 (fun w t => instance_in bd w = Ok t) (map fst (f_ind f)) targets).
  { clear -HT HN. induction HT as [|w t ws ts H HT IH]; constructor; [exact (instance_found bd w t HN H)|exact IH]. }
  destruct (steps_ok predict f (instance_in bd) (Some float32) b name float32 targets None HL HT' HA chs (mk_lrun st [] None cols false) HR) as (frs & s1 & E & EF & Fr & R & B & W & Z0 & N & _).
  rewrite E. cbn [l_store l_frames List.app] in *.
  assert (Ef : exists st1, f_finish p b ms s1 = (st1, None) /\
    match filter is_long chs with
    | [] => st_buildings st1 = st_buildings st
    | first :: rest => exists last, last_opt (first :: rest) = Some last /\ st_buildings st1 = dict_set (st_buildings st) b (building_meta b (tf_start (ch_frame first), tf_end (ch_frame last)) ms)
    end).
  { destruct (filter is_long chs) as [|c l] eqn:EL; [rewrite (Z0 eq_refl); eexists; split; reflexivity|]. assert (NE : c :: l <> []) by discriminate.
    destruct (N NE) as (Me & Av & _). destruct (last_opt_some c l) as (z & Hz). unfold f_finish. rewrite Av, Me, Fr.
    assert (Hl' : last_opt (map ch_frame (c :: l)) = Some (ch_frame z)).
    { clear -Hz. revert c Hz. induction l as [|x l IH]; intros ch Hl; [injection Hl as ->; reflexivity|]. exact (IH x Hl). }
    rewrite (save_spec (l_store s1) p name (map ch_frame (c :: l)) b ms (ch_frame c) (ch_frame z) Hp HBd HO eq_refl Hl'). eexists. split; [reflexivity|]. exists z. split; [exact Hz|]. cbn [st_buildings]. rewrite B. reflexivity. }
  destruct Ef as (st1 & Ef & Hst). rewrite Ef. pose proof (finish_tables p b ms s1) as Ft. rewrite Ef in Ft. cbn [fst] in Ft.
  pose proof (wrote_tables _ _ _ _ _ _ _ Ft W) as (W1 & W2 & W3). clear W Ft Ef.
  assert (Oth : forall k, fst k <> b -> lookup k (st_tables st1) = lookup k (st_tables st)).
  { intros k Hk. apply W3; [intros ->; apply Hk; reflexivity|]. intros z _ ->. apply Hk. reflexivity. }
  assert (Bo : forall b', b' <> b -> get_meta b' (st_buildings st1) = get_meta b' (st_buildings st)).
  { intros b' Hb'. destruct (filter is_long chs); [rewrite Hst; reflexivity|]. destruct Hst as (z & _ & ->). rewrite get_meta_set. replace (b' =? b)%Z with false by lia. reflexivity. }
  destruct (IH (mk_fh (f_ind f) ms (Some apps)) (mk_kw None (Some p) (Some s)) (l_cols s1) st1) as (ms' & st2 & E2 & F2 & O2).
  { exact HL. } { reflexivity. } { exact ND. } { right. left. split; reflexivity. } { reflexivity. }
  { intros b' Hb'. destruct (HB b' (or_intror Hb')) as (bd' & t' & c' & Ed' & HNb' & HP'). exists bd', t', c'. split; [exact Ed'|]. split; [exact HNb'|].
    apply (prepared_other predict f s p st st1 b' bd' t' c'); [|exact HP']. intros z. apply Oth. cbn [fst]. intros ->. contradiction. }
  exists ms', st2. split; [exact E2|]. split.
  - intros b' bd' c' [<-|Hb'] Ed' Hpw'.
    + rewrite Ed in Ed'. injection Ed' as <-. rewrite Hpw in Hpw'. injection Hpw' as <-. rewrite (O2 b Nb).
      destruct (filter is_long chs) as [|c l]; [rewrite Hst; reflexivity|]. destruct Hst as (z & Hz & Hst). exists z. eexists. split; [exact Hz|]. split; [rewrite Hst, get_meta_set, Z.eqb_refl; reflexivity|].
      apply (describes_iff _ _ (fun m => In m ms)); [exact Hms|]. apply describes_meta; [exact Nms|].
      intros K. apply in_map_iff in K. destruct K as (m & Em & Hm). apply Hms in Hm. destruct Hm as [Hm _]. apply (proj1 (proj2 HNb)). rewrite <- Em. apply in_map. exact Hm.
    + assert (Nbb : b' <> b) by (intros ->; contradiction). rewrite <- (Bo b' Nbb). exact (F2 b' bd' c' Hb' Ed' Hpw').
  - intros b' Hb'. rewrite O2 by (intros H; apply Hb'; right; exact H). apply Bo. intros ->. apply Hb'. left. reflexivity.
Qed.
