(** Several buildings. *)
From Coq Require Import String QArith Sorted.
From Verif Require Import Base TimeFrameModel TimeFrameSpec LcoModel LcoSpec LcoProofs LcoProofs2 LfhModel LfhSpec LfhProofs LfhProofs2.
Import List.
Open Scope list_scope.
Open Scope nat_scope.

Lemma first_skip l1 l2 t : Forall (fun m => exists a rest, m_apps m = a :: rest /\ ap_type a <> t) l1 ->
  get_meter_instance (l1 ++ l2) t = get_meter_instance l2 t.
Proof.
  induction 1 as [|m l1 (a & rest & E & Ne) F IH]; [reflexivity|]. cbn [List.app get_meter_instance]. rewrite E.
  destruct (String.eqb_spec (ap_type a) t); [contradiction|exact IH].
Qed.

Lemma first_found subs t target : first_of subs t target ->
  get_meter_instance subs t = Ok (match target with Some z => z | None => (-1)%Z end) /\ (forall z, target = Some z -> In z (map number subs)).
Proof.
  intros [(l1 & m & a & rest & l2 & -> & Ea & Et & -> & F)|[-> F]].
  - rewrite (first_skip _ _ _ F). cbn [get_meter_instance]. rewrite Ea, Et, String.eqb_refl. split; [reflexivity|]. intros z [= <-]. rewrite map_app. apply in_or_app. right. left. reflexivity.
  - split; [|discriminate]. rewrite <- (app_nil_r subs), (first_skip _ _ _ F). reflexivity.
Qed.

Lemma instance_found {S} (bd : building S) w target : Forall (fun m => m_apps m <> [] /\ number m <> (-1)%Z) (bd_subs bd) -> goes_to bd w target -> instance_in bd w = Ok target.
Proof.
  intros HN. destruct w as [m|t]; cbn [goes_to instance_in]; [intros ->; reflexivity|]. intros H. destruct (first_found _ _ _ H) as [-> K]. cbn [bind].
  destruct target as [z|]; [|reflexivity]. destruct (Z.eqb_spec z (-1)) as [->|_]; [|reflexivity]. specialize (K _ eq_refl). apply in_map_iff in K. destruct K as (m & E & Hm).
  rewrite Forall_forall in HN. destruct (HN m Hm) as [_ N]. contradiction.
Qed.

Lemma instance_total subs t : Forall (fun m => m_apps m <> [] /\ number m <> (-1)%Z) subs -> exists i, get_meter_instance subs t = Ok i /\ (i = (-1)%Z \/ In i (map number subs)).
Proof.
  induction 1 as [|m subs [N _] F IH]; [exists (-1)%Z; auto|]. cbn [get_meter_instance map]. destruct (m_apps m) as [|a rest]; [contradiction|]. destruct (String.eqb _ _).
  - eexists. split; [reflexivity|]. right. left. reflexivity.
  - destruct IH as (i & E & K). exists i. split; [exact E|]. destruct K; [left|right; right]; assumption.
Qed.

Lemma meters_total {S} (bd : building S) apps : Forall (fun m => m_apps m <> [] /\ number m <> (-1)%Z) (bd_subs bd) ->
  (forall m, In m (bd_subs bd) -> exists m', bd_item bd (number m) = Ok m') -> forall acc, exists ms, meters_of bd apps acc = (ms, None).
Proof.
  intros HN HI. induction apps as [|t apps IH]; intros acc; [exists acc; reflexivity|]. cbn [meters_of]. destruct (instance_total _ t HN) as (i & -> & K).
  destruct (Z.eqb_spec i (-1)) as [_|Ne]; [apply IH|]. destruct K as [K|K]; [contradiction|]. apply in_map_iff in K. destruct K as (m & <- & Hm).
  destruct (HI m Hm) as (m' & ->). apply IH.
Qed.

Lemma finish_ok p b ms s name : (0 <= p)%Z -> l_measure s = Some name -> Forall is_bounded (l_frames s) -> in_order (l_frames s) -> l_frames s <> [] ->
  exists st', f_finish p b ms s = (st', None).
Proof.
  intros Hp Me HB HO NE. unfold f_finish. destruct (l_avail s); [|eexists; reflexivity]. rewrite Me. destruct (l_frames s) as [|a l] eqn:El; [contradiction|].
  destruct (last_opt_some a l) as (z & Hz). rewrite (save_spec (l_store s) p name (a :: l) b ms a z Hp HB HO eq_refl Hz). eexists. reflexivity.
Qed.

Lemma ready_other predict f b st st' name force dt targets chs : (forall z, lookup (b, z) (st_tables st') = lookup (b, z) (st_tables st)) ->
  ready predict f b st name force dt targets chs -> ready predict f b st' name force dt targets chs.
Proof.
  intros H (H1 & H2 & H3). split; [exact H1|]. split; [intros z Hin; eapply accepts_other; [apply H|]; exact (H2 z Hin)|eapply accepts_other; [apply H|exact H3]].
Qed.

Lemma prepared_other {S} predict f (s : S) p st st' b bd targets chs : (forall z, lookup (b, z) (st_tables st') = lookup (b, z) (st_tables st)) ->
  prepared predict f s p st b bd targets chs -> prepared predict f s p st' b bd targets chs.
Proof.
  intros H (H1 & H2 & H3 & H4 & H5 & H6 & (name & H7) & H8). split; [exact H1|]. split; [exact H2|]. split; [exact H3|]. split; [exact H4|]. split; [exact H5|]. split; [exact H6|].
  split; [exists name; exact (ready_other _ _ _ _ _ _ _ _ _ _ H H7)|exact H8].
Qed.

Lemma in_order_nil : in_order []. Proof. exact I. Qed.

Lemma across_ok {S} predict (ds : Z -> option (building S)) (s : S) p apps : (0 <= p)%Z -> forall bs f kw cols st, learnt f -> f_apps f = Some apps -> NoDup bs ->
  asked_period (k_resample kw) (k_period kw) p -> k_sections kw = Some s ->
  (forall b, In b bs -> exists bd targets chs, ds b = Some bd /\ prepared predict f s p st b bd targets chs) ->
  exists ms st', f_across predict ds bs f kw cols st = (ms, st', None) /\
    (forall b bd targets chs, In b bs -> ds b = Some bd -> prepared predict f s p st b bd targets chs ->
       let long := filter is_long chs in
       exists frames, Forall2 (estimated predict f) long frames /\ filled b targets st long frames st') /\
    (forall k, ~ In (fst k) bs -> lookup k (st_tables st') = lookup k (st_tables st)).
Proof.
  intros Hp. induction bs as [|b bs IH]; intros f kw cols st HL Hap ND HK HS HB; cbn [f_across].
  { exists (f_meters f), st. split; [reflexivity|]. split; [intros b bd targets chs []|reflexivity]. }
  apply NoDup_cons_iff in ND. destruct ND as [Nb ND]. destruct (HB b (or_introl eq_refl)) as (bd & targets & chs & Ed & HP). rewrite Ed.
  pose proof HP as ((g & Hg) & Hpw & HN & HI & HT & HA & (name & HR) & HBd & HO).
  rewrite (pre_checks_ok f kw (proj1 HL)). cbn [bind]. rewrite Hg. cbn [bind]. pose proof (defaults_ok kw p g HK) as D. cbv zeta in D. rewrite D, HS. clear D.
  rewrite Hap. destruct (meters_total bd apps HN HI []) as (ms & Ems). rewrite Ems. unfold power. cbn [k_sections k_period]. rewrite Hpw. cbn [fst snd period_of k_period].
  assert (HT' : Forall2 (fun w t => instance_in bd w = Ok t) (map fst (f_ind f)) targets).
  { clear -HT HN. induction HT as [|w t ws ts H HT IH]; constructor; [exact (instance_found bd w t HN H)|exact IH]. }
  destruct (steps_ok predict f (instance_in bd) (Some float32) b name float32 targets None HL HT' HA chs (mk_lrun st [] None cols false) HR) as (frs & s1 & E & EF & Fr & R & B & W & Z0 & N & _).
  rewrite E. cbn [l_store l_frames List.app] in *.
  assert (Ef : exists st1, f_finish p b ms s1 = (st1, None)).
  { destruct (filter is_long chs) as [|c l] eqn:EL; [rewrite (Z0 eq_refl); eexists; reflexivity|]. assert (NE : c :: l <> []) by discriminate.
    destruct (N NE) as (Me & _). apply (finish_ok p b ms s1 name Hp Me); rewrite Fr; [exact HBd|exact HO|discriminate]. }
  destruct Ef as (st1 & Ef). rewrite Ef. pose proof (finish_tables p b ms s1) as Ft. rewrite Ef in Ft. cbn [fst] in Ft.
  pose proof (wrote_tables _ _ _ _ _ _ _ Ft W) as (W1 & W2 & W3). clear W Ft Ef.
  assert (Oth : forall k, fst k <> b -> lookup k (st_tables st1) = lookup k (st_tables st)).
  { intros k Hk. apply W3; [intros ->; apply Hk; reflexivity|]. intros z _ ->. apply Hk. reflexivity. }
  destruct (IH (mk_fh (f_ind f) ms (Some apps)) (mk_kw None (Some p) (Some s)) (l_cols s1) st1) as (ms' & st2 & E2 & F2 & O2).
  { exact HL. } { reflexivity. } { exact ND. } { right. left. split; reflexivity. } { reflexivity. }
  { intros b' Hb'. destruct (HB b' (or_intror Hb')) as (bd' & t' & c' & Ed' & HP'). exists bd', t', c'. split; [exact Ed'|].
    apply (prepared_other predict f s p st st1 b' bd' t' c'); [|exact HP']. intros z. apply Oth. cbn [fst]. intros ->. contradiction. }
  exists ms', st2. split; [exact E2|]. split.
  - intros b' bd' t' c' [<-|Hb'] Ed' HP'.
    + rewrite Ed in Ed'. injection Ed' as <-.
      assert (t' = targets).
      { destruct HP' as (_ & _ & HN' & _ & HT2 & _). clear -HT' HT2 HN'. revert t' HT2. induction HT' as [|w t ws ts H HT IH]; intros t' HT2; inversion HT2 as [|? u ? us K1 K2]; subst; [reflexivity|].
        rewrite (instance_found bd w u HN' K1) in H. injection H as ->. f_equal. exact (IH _ K2). }
      assert (c' = chs) by (destruct HP' as (_ & Hpw' & _); congruence). subst t' c'. exists frs. split; [exact EF|].
      assert (Ob : forall z, lookup (b, z) (st_tables st2) = lookup (b, z) (st_tables st1)) by (intros z; apply O2; exact Nb).
      split; [|split].
      * intros i z Hi. rewrite <- (W1 i z Hi). apply rows_at_other. apply Ob.
      * rewrite <- W2. apply rows_at_other. apply Ob.
      * intros z Hz Hin. rewrite Ob. apply W3; [congruence|]. intros z' Hz' Eq. injection Eq as ->. contradiction.
    + assert (Nbb : b' <> b) by (intros ->; contradiction).
      destruct (F2 b' bd' t' c' Hb' Ed') as (frs' & EF' & (G1 & G2 & G3)).
      { apply (prepared_other predict f s p st st1 b' bd' t' c'); [|exact HP']. intros z. apply Oth. exact Nbb. }
      exists frs'. split; [exact EF'|].
      assert (Ob : forall z, lookup (b', z) (st_tables st1) = lookup (b', z) (st_tables st)) by (intros z; apply Oth; exact Nbb).
      split; [|split].
      * intros i z Hi. rewrite (G1 i z Hi). f_equal. apply rows_at_other. apply Ob.
      * rewrite G2. f_equal. apply rows_at_other. apply Ob.
      * intros z Hz Hin. rewrite (G3 z Hz Hin). apply Ob.
  - intros k Hk. rewrite O2 by (intros H; apply Hk; right; exact H). apply Oth. intros Eq. apply Hk. left. congruence.
Qed.

Lemma across_sections {S} predict (ds : Z -> option (building S)) b bs f kw st bd g : ds b = Some bd -> mn_good (bd_mains bd) = Ok g -> k_sections kw = None ->
  f_across predict ds (b :: bs) f kw None st = f_across predict ds (b :: bs) f (given kw g) None st.
Proof.
  intros Ed Hg Hs. destruct kw as [r q o]. cbn in Hs. subst o. cbn [f_across]. rewrite Ed, Hg. unfold pre_checks, given. destruct (f_ind f); [reflexivity|].
  destruct r, q; reflexivity.
Qed.

Lemma absent_spec {S} predict (ds : Z -> option (building S)) b bs f apps kw st p bd g ch chs e : learnt f -> f_apps f = Some apps ->
  asked_period (k_resample kw) (k_period kw) p -> ds b = Some bd -> mn_good (bd_mains bd) = Ok g -> mn_power (bd_mains bd) (sections_of kw g) p = (ch :: chs, e) ->
  Forall (fun m => m_apps m <> [] /\ number m <> (-1)%Z) (bd_subs bd) -> (forall m, In m (bd_subs bd) -> exists m', bd_item bd (number m) = Ok m') ->
  Forall (fun w => goes_to bd w None) (map fst (f_ind f)) -> is_long ch = true -> usable predict f ch ->
  exists ms, f_across predict ds (b :: bs) f kw None st = (ms, st, Some UnboundLocalError).
Proof.
  intros HL Hap HK Ed Hg Hpw HN HI HW Hlong (_ & states & HE). cbn [f_across]. rewrite Ed. rewrite (pre_checks_ok f kw (proj1 HL)). cbn [bind]. rewrite Hg. cbn [bind].
  pose proof (defaults_ok kw p g HK) as D. cbv zeta in D. rewrite D. clear D. rewrite Hap. destruct (meters_total bd apps HN HI []) as (ms & Ems). rewrite Ems.
  unfold power. cbn [k_sections k_period]. fold (sections_of kw g). rewrite Hpw. cbn [fst snd f_steps]. unfold f_step. unfold is_long in Hlong. apply Nat.leb_le in Hlong.
  replace (length (ch_rows ch) <? 100) with false by (symmetry; apply Nat.ltb_ge; exact Hlong).
  destruct (chunk_spec predict f ch states HL HE) as ((times & cols) & Ec & (_ & EC & _)). rewrite Ec. cbn [snd] in EC. cbn [l_store l_frames l_cols l_avail].
  assert (K : forall s, write_columns (instance_in bd) b ch times cols s = (s, None)).
  { rewrite <- EC in HW. clear -HW HN. induction cols as [|[w col] cols IH]; intros s; [reflexivity|]. cbn [map fst] in HW. apply Forall_cons_iff in HW. destruct HW as [H1 H2].
    cbn [write_columns]. rewrite (instance_found bd w None HN H1). exact (IH H2 s). }
  rewrite K. cbn [write_mains l_cols]. unfold write_mains. cbn [l_cols]. exists ms. reflexivity.
Qed.
