From Coq Require Import Lia Permutation.
From Verif Require Import Base PrepModel PrepSpec PrepProofs PrepProofs2.
Import List. Open Scope nat_scope.

Lemma ceil_div_spec m p : (0 < p)%Z -> is_ceil (ceil_div m p) m p.
Proof.
  intros H. unfold is_ceil, ceil_div. pose proof (Z.div_mod (- m) p ltac:(lia)). pose proof (Z.mod_pos_bound (- m) p H). nia.
Qed.

Section O.
Context {C : Type}.

Definition st_nodes (st : state C) (a : args C) (ns : list nat) : Prop :=
  match a_prep a with Some l => nth_error (lists st) l = Some ns | None => ns = [] end.
Definition has_opts (st : state C) (a : args C) : Prop := forall d, a_opts a = Some d -> d < length (dicts st).

Lemma own_prep (st : state C) a ns : st_nodes st a ns -> resampling a = true -> (0 < period a)%Z -> has_opts st a ->
  exists st' d lim, prep st a = (st', Ok (ns ++ [length (nodes st)])) /\ nodes st' = nodes st ++ [(None, Resample (period a) d)] /\
    nth_error (dicts st') d = Some (Some lim) /\ own_limit (dicts st) a lim.
Proof.
  intros HN HR HP HO. unfold prep. rewrite HR.
  assert (E1 : exists st1 d, prepare_opts st a = Ok (st1, d)).
  { unfold prepare_opts. destruct (a_opts a) as [d|] eqn:Ed.
    - specialize (HO _ Ed). destruct (nth_error (dicts st) d) as [[v|]|] eqn:En; [eauto| |apply nth_error_None in En; lia].
      rewrite (proj2 (Z.eqb_neq _ _)) by lia. eauto.
    - rewrite nth_app_new, (proj2 (Z.eqb_neq _ _)) by lia. eauto. }
  destruct E1 as (st1 & d & E1). rewrite E1. destruct (prepare_opts_facts _ _ _ _ E1) as (A1 & A2 & A3 & A4 & A5 & A6 & A7 & lim & A8 & A9).
  assert (E2 : exists st2 l, append_apply st1 a d = Ok (st2, l)).
  { unfold append_apply. unfold st_nodes in HN. destruct (a_prep a) as [l|]; [rewrite A1, HN; eauto|]. rewrite nth_app_new. eauto. }
  destruct E2 as (st2 & l & E2). rewrite E2. destruct (append_apply_facts _ _ _ _ _ E2) as (B1 & B2 & B3 & B4 & B5 & (ns0 & B6 & B6') & _).
  rewrite B6'. exists st2, d, lim. assert (ns0 = ns).
  { unfold st_nodes in HN. destruct B6 as [[Q1 Q2]|(Q1 & _ & Q2)]; rewrite Q1 in HN; [rewrite A1, HN in Q2; now injection Q2 as <-|congruence]. }
  subst ns0. rewrite A2 in *. split; [reflexivity|]. split; [exact B2|]. split; [now rewrite B1|].
  unfold own_limit. change (own_period a) with (period a). destruct A9 as [(d0 & Q1 & Q2)|(Q1 & -> & _)].
  - rewrite Q1, Q2. reflexivity.
  - destruct (a_opts a) as [d0|]; [rewrite (Q1 _ eq_refl)|]; now apply ceil_div_spec.
Qed.
Lemma own_prep_plain (st : state C) a ns : st_nodes st a ns -> resampling a = false -> prep st a = (st, Ok ns).
Proof.
  intros HN HR. unfold prep. rewrite HR. unfold st_nodes in HN. destruct (a_prep a) as [l|]; [now rewrite HN|now subst].
Qed.

Definition own_funs (a : args C) (d : nat) (ns : list nat) : list nfun := map User ns ++ (if resampling a then [Resample (period a) d] else []).

Lemma own_apply user resample (ds : list (option Z)) a d lim ns c : (resampling a = true -> nth_error ds d = Some (Some lim)) ->
  apply_nodes user resample ds (own_funs a d ns) c = Ok (asked user resample a ns lim c).
Proof.
  intros H. unfold apply_nodes, own_funs, asked. change (wants a) with (resampling a). change (own_period a) with (period a). rewrite fold_left_app.
  assert (E : forall c, fold_left (apply_node user resample ds) (map User ns) (Ok c) = Ok (fold_left (fun c k => user k c) ns c)).
  { clear. induction ns as [|k ns IH]; intros c; [reflexivity|]. cbn. apply IH. }
  rewrite E. destruct (resampling a); [|reflexivity]. cbn. now rewrite (H eq_refl).
Qed.

Lemma nodup_bound (l : list nat) n : NoDup l -> (forall m, In m l -> m < n) -> length l <= n.
Proof.
  intros ND H. rewrite <- (seq_length n 0). apply NoDup_incl_length; [exact ND|]. intros m Hm. apply in_seq. specialize (H _ Hm). lia.
Qed.
End O.

Section J.
Context {C : Type}.
Variables (user : nat -> C -> C) (resample : Z -> Z -> C -> C) (series : C -> C).
Variables (nl nd : nat) (outl inl : nat -> Prop) (pl pd : option nat).
Hypothesis Hout : forall l, outl l -> l < nl /\ Some l <> pl.
Hypothesis Hinl : forall l, inl l -> l < nl.
Hypothesis Hdis : forall l, outl l -> inl l -> False.
Hypothesis Hpl : forall l, pl = Some l -> l < nl.
Hypothesis Hpd : forall d, pd = Some d -> d < nd.
Notation Inv := (Inv (C:=C) nl nd outl inl pl pd).
Notation View := (View (C:=C) pl pd).
Notation foreign := (foreign (C:=C) outl inl pl pd).
Notation step_foreign := (step_foreign user resample series nl nd outl inl pl pd Hout Hinl Hdis Hpl Hpd).

Variables (a : args C) (ns : list nat) (cs : list C) (ds : list (option Z)).
Hypothesis Ha : a_prep a = pl.
Hypothesis Hsrc : a_src a = Ok cs.
Hypothesis Hnd : NoDup ns.
Hypothesis Hper : resampling a = true -> (0 < period a)%Z.
Hypothesis Hopts : forall d, a_opts a = Some d -> d < length ds.
Hypothesis Hds : length ds = nd.
Hypothesis Hpds : forall d, a_opts a = Some d -> resampling a = true -> nth_error ds d = Some None -> pd = Some d.

(** Before the load. *)
Record Before (N : nat -> Prop) (g0 : option nat) (st : state C) : Prop := {
  b_inv : Inv N None g0 st;
  b_list : st_nodes st a ns;
  b_N : forall m, In m ns -> N m;
  b_fun : forall m, In m ns -> exists u, nth_error (nodes st) m = Some (u, User m);
  b_set : forall d v, nth_error ds d = Some (Some v) -> nth_error (dicts st) d = Some (Some v);
  b_unset : forall d, pd = Some d -> nth_error (dicts st) d = nth_error ds d
}.
Lemma before_step N g0 st o st' x : Before N g0 st -> foreign g0 o -> step user resample series st o = (st', x) ->
  exists N', Before N' g0 st' /\ View None g0 st st'.
Proof.
  intros HB Hf E. destruct (step_foreign _ _ _ _ _ _ _ (b_inv _ _ _ HB) Hf E) as (N' & I' & V & [G1 G2] & _).
  exists N'. split; [|exact V]. destruct HB. split; auto.
  - unfold st_nodes in *. rewrite Ha in *. destruct pl as [l|] eqn:Epl; [|exact b_list0]. rewrite (w_pl _ _ _ _ _ _ V l eq_refl); [exact b_list0|].
    eapply nth_some_lt; exact b_list0.
  - intros m Hm. destruct (b_fun0 _ Hm) as [u Hu]. exact (w_fun _ _ _ _ _ _ V _ _ _ Hu).
  - intros d v H. apply (w_set _ _ _ _ _ _ V), b_set0, H.
  - intros d H. rewrite (w_pd _ _ _ _ _ _ V d H); [auto|]. pose proof (i_nd _ _ _ _ _ _ _ _ _ _ b_inv0). specialize (Hpd _ H). lia.
Qed.

(** The load itself. *)
Definition own_gen (st : state C) (s : nat) (fs : list nfun) (x : gst C) (L : list nat) : Prop :=
  (x = GRun fs false s /\ fs = []) \/ (exists m, x = GWait m false /\ lref (RSource s) L = RNode m /\ linked (nodes st) (RSource s) L fs).

Lemma own_load N g0 st st' r : Before N g0 st -> load st a = (st', r) ->
  exists N' L x d lim, r = Ok x /\ Inv N' (Some (length (sources st))) g0 st' /\ (forall m, In m L -> N' m) /\ NoDup L /\
    own_gen st' (length (sources st)) (own_funs a d ns) x L /\ nth_error (sources st') (length (sources st)) = Some cs /\ gens st' = gens st /\
    (resampling a = true -> nth_error (dicts st') d = Some (Some lim) /\ own_limit ds a lim).
Proof.
  intros HB. rewrite load_prep.
  assert (Q : exists st1 L d lim N1, prep st a = (st1, Ok L) /\ Inv N1 None g0 st1 /\ (forall m, In m L -> N1 m) /\ NoDup L /\
     Forall2 (fun n f => exists u, nth_error (nodes st1) n = Some (u, f)) L (own_funs a d ns) /\ sources st1 = sources st /\ gens st1 = gens st /\
     (resampling a = true -> nth_error (dicts st1) d = Some (Some lim) /\ own_limit ds a lim)).
  { destruct HB. assert (BN : forall m, In m ns -> m < length (nodes st)). { intros m Hm. destruct (b_fun0 _ Hm) as [u Hu]. eapply nth_some_lt; exact Hu. }
    destruct (resampling a) eqn:ER.
    - assert (HO : has_opts st a). { intros d Hd. specialize (Hopts _ Hd). pose proof (i_nd _ _ _ _ _ _ _ _ _ _ b_inv0). lia. }
      destruct (own_prep st a ns b_list0 ER (Hper eq_refl) HO) as (st1 & d & lim & E & En & Ed & EL).
      pose proof (prep_ok _ _ _ _ E) as HP.
      assert (I1 : Inv (plus_fresh N st st1) None g0 st1).
      { eapply prep_inv; try eassumption. right. split; [reflexivity|]. intros l Hl Ho. apply (proj2 (Hout _ Ho)). congruence. }
      exists st1, (ns ++ [length (nodes st)]), d, lim, (plus_fresh N st st1). split; [exact E|]. split; [exact I1|]. split.
      { intros m Hm. apply in_app_or in Hm. destruct Hm as [Hm|[<-|[]]]; [left; auto|]. right. split; [reflexivity|]. rewrite En, app_length. cbn. lia. }
      split. { apply Permutation_NoDup with (l := length (nodes st) :: ns); [apply Permutation_cons_append|]. constructor; [|exact Hnd].
        intros Hi. specialize (BN _ Hi). lia. }
      split. { unfold own_funs. rewrite ER. apply Forall2_app.
        - clear -b_fun0 En BN. rewrite En. induction ns as [|m r IH]; cbn; constructor.
          + destruct (b_fun0 m (or_introl eq_refl)) as [u Hu]. exists u. rewrite nth_app_old; [exact Hu|]. eapply nth_some_lt; exact Hu.
          + apply IH; intros; [apply b_fun0|apply BN]; now right.
        - constructor; [|constructor]. exists None. rewrite En. apply nth_app_new. }
      split; [apply (p_sources _ _ _ _ HP)|]. split; [apply (p_gens _ _ _ _ HP)|]. intros _. split; [exact Ed|].
      unfold own_limit in *. change (own_period a) with (period a) in *. destruct (a_opts a) as [d0|] eqn:Ea; [|exact EL]. specialize (Hopts _ eq_refl).
      destruct (nth_error ds d0) as [[v|]|] eqn:E0; [|rewrite (b_unset0 _ (Hpds _ eq_refl eq_refl E0)), E0 in EL; exact EL|apply nth_error_None in E0; lia].
      rewrite (b_set0 _ _ E0) in EL. exact EL.
    - exists st, ns, 0, 0%Z, N. split; [now apply own_prep_plain|]. split; [exact b_inv0|]. split; [exact b_N0|]. split; [exact Hnd|].
      split. { unfold own_funs. rewrite ER, app_nil_r. clear -b_fun0. induction ns as [|m r IH]; cbn; constructor; [apply b_fun0; now left|]. apply IH. intros; apply b_fun0; now right. }
      split; [reflexivity|]. split; [reflexivity|]. discriminate. }
  destruct Q as (st1 & L & d & lim & N1 & E & I1 & HL & ND & HF & ES & EG & Hlim). rewrite E, Hsrc. unfold connect_source. rewrite ES.
  assert (BL : forall m, In m L -> m < length (nodes st1)). { intros m Hm. apply (i_N _ _ _ _ _ _ _ _ _ _ I1), HL, Hm. }
  destruct (connect_ok L (nodes st1) (RSource (length (sources st)))) as (nds & last & EC). { apply Forall_forall. exact BL. }
  rewrite EC. intros [= <- <-]. pose proof (connect_len _ _ _ _ _ EC) as CL. pose proof (connect_other _ _ _ _ _ EC) as CO.
  pose proof (connect_closed _ _ _ _ _ EC) as CC. pose proof (connect_last _ _ _ _ _ EC) as CLast. pose proof (connect_linked _ ND _ _ _ _ _ EC HF) as CK.
  eexists N1, L, _, d, lim. split; [reflexivity|]. split; [|split; [exact HL|split; [exact ND|split; [|split; [|split; [exact EG|]]]]]].
  - destruct I1 as [i_nl0 i_nd0 i_lists0 i_up0 i_gens0 i_N0 i_s1 i_g1 v_up0 v_gens0 v_out0 v_in0]. split; cbn [lists dicts nodes sources gens]; auto.
    + intros l ms m H Hm. rewrite CL. eapply i_lists0; eassumption.
    + intros m x f H. destruct (in_dec Nat.eq_dec m L) as [Hi|Hi].
      * destruct (CC m x f Hi H) as [->|(m' & -> & Hm')]; cbn; [rewrite app_length; cbn; lia|rewrite CL; auto].
      * rewrite CO in H by exact Hi. specialize (i_up0 _ _ _ H). destruct x; cbn in *; [lia|]. rewrite app_length. rewrite ES in i_up0. lia.
    + intros i x H. specialize (i_gens0 _ _ H). destruct x; cbn in *; auto; [lia|]. rewrite app_length. rewrite ES in i_gens0. lia.
    + intros m H. rewrite CL. auto.
    + intros s [= <-]. rewrite app_length. cbn. lia.
    + intros m x f Hm H. assert (Hi : ~ In m L) by (intros Hi; apply Hm, HL, Hi). rewrite CO in H by exact Hi.
      pose proof (v_up0 _ _ _ Hm H) as V. specialize (i_up0 _ _ _ H). destruct x; cbn in *; [exact V|]. rewrite ES in i_up0. intros [= ->]. lia.
    + intros i x Hi H. pose proof (v_gens0 _ _ Hi H) as V. specialize (i_gens0 _ _ H). destruct x; cbn in *; auto. rewrite ES in i_gens0. intros [= ->]. lia.
  - unfold own_gen. cbn [nodes]. rewrite CLast. destruct L as [|n r].
    + left. inversion HF as [H0|]. cbn. auto.
    + right. cbn [lref]. destruct (lref_in (RNode n) r) as [->|(m & Em & Hm)]; [exists n; auto|]. rewrite Em. exists m. auto.
  - cbn [sources]. apply nth_app_new.
  - intros HR. cbn [dicts]. exact (Hlim HR).
Qed.

Lemma own_limit_ex (st : state C) (N : nat -> Prop) g0 : Before N g0 st -> exists lim, resampling a = true -> own_limit ds a lim.
Proof.
  intros HB. destruct (resampling a) eqn:ER; [|exists 0%Z; discriminate]. unfold own_limit. change (own_period a) with (period a). destruct (a_opts a) as [d|] eqn:Ea.
  - specialize (Hopts _ eq_refl). destruct (nth_error ds d) as [[v|]|] eqn:E; [eauto| |apply nth_error_None in E; lia].
    eexists. intros _. apply ceil_div_spec. auto.
  - eexists. intros _. apply ceil_div_spec. auto.
Qed.

(** After the load. *)
Definition own_result (lim : Z) (ser : bool) (c : C) : C := let c' := asked user resample a ns lim c in if ser then series c' else c'.
Definition own_state (st : state C) (g s d : nat) (ser : bool) (L : list nat) (rest : list C) : Prop :=
  nth_error (gens st) g = Some (GRun (own_funs a d ns) ser s) \/
  ((forall l, ~ inl l) /\ exists m, nth_error (gens st) g = Some (GWait m ser) /\ lref (RSource s) L = RNode m /\ linked (nodes st) (RSource s) L (own_funs a d ns)) \/
  (nth_error (gens st) g = Some GDone /\ rest = []).
Record After (N : nat -> Prop) (g s d : nat) (lim : Z) (ser : bool) (L : list nat) (rest : list C) (st : state C) : Prop := {
  f_inv : Inv N (Some s) (Some g) st;
  f_N : forall m, In m L -> N m;
  f_nd : NoDup L;
  f_src : nth_error (sources st) s = Some rest;
  f_lim : resampling a = true -> nth_error (dicts st) d = Some (Some lim);
  f_gen : own_state st g s d ser L rest
}.
Lemma after_step N g s d lim ser L rest st o st' x : After N g s d lim ser L rest st -> foreign (Some g) o -> step user resample series st o = (st', x) ->
  exists N', After N' g s d lim ser L rest st'.
Proof.
  intros HA Hf E. destruct (step_foreign _ _ _ _ _ _ _ (f_inv _ _ _ _ _ _ _ _ _ HA) Hf E) as (N' & I' & V & [G1 G2] & G3).
  exists N'. destruct HA. split; auto.
  - rewrite (w_s0 _ _ _ _ _ _ V _ eq_refl). exact f_src0.
  - intros HR. apply (w_set _ _ _ _ _ _ V), f_lim0, HR.
  - unfold own_state in *. rewrite (w_g0 _ _ _ _ _ _ V _ eq_refl). destruct f_gen0 as [H|[(Hn & m & H1 & H2 & H3)|H]]; auto.
    right. left. split; [exact Hn|]. exists m. split; [exact H1|]. split; [exact H2|]. destruct (G3 Hn) as [_ G4].
    eapply linked_same; [|exact H3]. intros m' Hm'. apply G4, f_N0, Hm'.
Qed.

Lemma own_chain st N s0 g0 s L fs m : Inv N s0 g0 st -> (forall m, In m L -> N m) -> NoDup L -> lref (RSource s) L = RNode m -> linked (nodes st) (RSource s) L fs ->
  chain (S (length (nodes st))) (nodes st) (RNode m) = Ok (fs, s).
Proof.
  intros HI HN ND HL HK. assert (LB : length L <= length (nodes st)). { apply nodup_bound; [exact ND|]. intros m' Hm'. apply (i_N _ _ _ _ _ _ _ _ _ _ HI), HN, Hm'. }
  rewrite <- HL. eapply chain_mono; [|eapply (chain_linked (nodes st) L (RSource s) fs HK 0 [] s); reflexivity]. lia.
Qed.

Lemma advance_own st g s d lim ser c rest : nth_error (sources st) s = Some (c :: rest) -> (resampling a = true -> nth_error (dicts st) d = Some (Some lim)) ->
  advance user resample series st g (own_funs a d ns) ser s =
  (set_gen (mkState (lists st) (dicts st) (nodes st) (set_nth (sources st) s rest) (gens st)) g (GRun (own_funs a d ns) ser s), Ok (own_result lim ser c)).
Proof. intros H1 H2. unfold advance. rewrite H1, (own_apply user resample _ _ _ _ _ _ H2). reflexivity. Qed.
Lemma advance_end st g s fs ser : nth_error (sources st) s = Some [] -> advance user resample series st g fs ser s = (set_gen st g GDone, Err StopIteration).
Proof. intros H1. unfold advance. now rewrite H1. Qed.

Lemma set_gen_own (st : state C) (N : nat -> Prop) s0 g x : Inv N s0 (Some g) st -> gen_bound st x -> Inv N s0 (Some g) (set_gen st g x).
Proof. intros HI Hb. eapply set_gen_inv; try eassumption. congruence. Qed.

Lemma after_advance (N : nat -> Prop) g s d lim ser L rest st : Inv N (Some s) (Some g) st -> (forall m, In m L -> N m) -> NoDup L ->
  nth_error (sources st) s = Some rest -> (resampling a = true -> nth_error (dicts st) d = Some (Some lim)) ->
  match rest with
  | [] => exists st', advance user resample series st g (own_funs a d ns) ser s = (st', Err StopIteration) /\ After N g s d lim ser L [] st'
  | c :: r => exists st', advance user resample series st g (own_funs a d ns) ser s = (st', Ok (own_result lim ser c)) /\ After N g s d lim ser L r st'
  end.
Proof.
  intros HI HN ND HS HL. pose proof (i_g0 _ _ _ _ _ _ _ _ _ _ HI _ eq_refl) as GB. pose proof (i_s0 _ _ _ _ _ _ _ _ _ _ HI _ eq_refl) as SB. destruct rest as [|c r].
  - rewrite advance_end by exact HS. eexists. split; [reflexivity|]. split; auto; [apply set_gen_own; cbn; auto|].
    right. right. split; [|reflexivity]. cbn. now apply nth_set_eq.
  - rewrite (advance_own _ _ _ _ lim _ _ _ HS HL). eexists. split; [reflexivity|]. split; auto.
    + apply set_gen_own; [|cbn; now rewrite set_nth_length]. eapply set_source_inv; eassumption.
    + cbn. now apply nth_set_eq.
    + left. cbn. now apply nth_set_eq.
Qed.

Lemma after_pull N g s d lim ser L rest st : After N g s d lim ser L rest st ->
  match rest with
  | [] => exists st', pull user resample series st g = (st', Err StopIteration) /\ After N g s d lim ser L [] st'
  | c :: r => exists st', pull user resample series st g = (st', Ok (own_result lim ser c)) /\ After N g s d lim ser L r st'
  end.
Proof.
  intros HA. destruct HA. pose proof (after_advance N g s d lim ser L rest st f_inv0 f_N0 f_nd0 f_src0 f_lim0) as AA. unfold pull.
  destruct f_gen0 as [H|[(Hn & m & H1 & H2 & H3)|[H ->]]].
  - rewrite H. exact AA.
  - rewrite H1. cbn [start]. rewrite (own_chain _ _ _ _ _ _ _ _ f_inv0 f_N0 f_nd0 H2 H3). exact AA.
  - rewrite H. exists st. split; [reflexivity|]. split; auto. right. right. auto.
Qed.

Lemma yields_cons c cs' xs : yields cs' xs -> yields (c :: cs') (Got (C := C) c :: xs).
Proof.
  unfold yields. intros H. cbn [length map List.app firstn repeat]. f_equal. etransitivity; [exact H|].
  rewrite repeat_cons, app_assoc, (firstn_app (length xs) (_ ++ _)).
  replace (length xs - length (map Got cs' ++ repeat (Raised StopIteration) (length xs))) with 0; [cbn [firstn]; now rewrite app_nil_r|].
  rewrite app_length, repeat_length. lia.
Qed.
Lemma yields_stop xs : yields [] xs -> yields [] (Raised (C := C) StopIteration :: xs).
Proof. unfold yields. cbn. intros H. f_equal. exact H. Qed.

Definition other (g : nat) (o : op C) : Prop := foreign (Some g) o \/ o = Pull g.
Lemma after_run g s d lim ser L ops : Forall (other g) ops -> forall N rest st st' xs, After N g s d lim ser L rest st ->
  run user resample series st ops = (st', xs) -> yields (map (own_result lim ser) rest) (answers_of g ops xs).
Proof.
  induction 1 as [|o ops Ho _ IH]; intros N rest st st' xs HA; cbn [run].
  - intros [= <- <-]. reflexivity.
  - destruct (step user resample series st o) as [st1 x] eqn:Es. destruct (run user resample series st1 ops) as [st2 ys] eqn:Er. intros [= <- <-].
    destruct Ho as [Ho|Ho].
    + destruct (after_step _ _ _ _ _ _ _ _ _ _ _ _ HA Ho Es) as [N' HA']. specialize (IH _ _ _ _ _ HA' Er).
      destruct o as [b|b|g']; cbn [answers_of]; try exact IH. cbn in Ho. rewrite (proj2 (Nat.eqb_neq g' g)) by congruence. exact IH.
    + subst o. cbn [answers_of]. rewrite Nat.eqb_refl. cbn [step] in Es. pose proof (after_pull _ _ _ _ _ _ _ _ _ HA) as HP.
      destruct rest as [|c r]; destruct HP as (st1' & E1 & HA'); rewrite E1 in Es; injection Es as <- <-; specialize (IH _ _ _ _ _ HA' Er).
      * apply yields_stop. exact IH.
      * apply yields_cons. exact IH.
Qed.

Lemma run_app ops1 : forall st ops2, run user resample series st (ops1 ++ ops2) =
  (let '(st1, xs1) := run user resample series st ops1 in let '(st2, xs2) := run user resample series st1 ops2 in (st2, xs1 ++ xs2)).
Proof.
  induction ops1 as [|o ops1 IH]; intros st ops2; cbn [run List.app].
  - destruct (run user resample series st ops2). reflexivity.
  - destruct (step user resample series st o) as [st1 x]. rewrite IH. destruct (run user resample series st1 ops1) as [st2 xs].
    destruct (run user resample series st2 ops2). reflexivity.
Qed.
Lemma run_length ops : forall st st' xs, run user resample series st ops = (st', xs) -> length xs = length ops.
Proof.
  induction ops as [|o ops IH]; intros st st' xs; cbn [run]; [now intros [= <- <-]|].
  destruct (step user resample series st o) as [st1 x]. destruct (run user resample series st1 ops) as [st2 ys] eqn:E. intros [= <- <-]. cbn. f_equal. eapply IH; exact E.
Qed.
Lemma before_run g0 ops : Forall (foreign g0) ops -> forall N st st' xs, Before N g0 st -> run user resample series st ops = (st', xs) ->
  exists N', Before N' g0 st' /\ forall g, g0 = Some g -> nth_error (gens st') g = nth_error (gens st) g.
Proof.
  induction 1 as [|o ops Ho _ IH]; intros N st st' xs HB; cbn [run].
  - intros [= <- <-]. exists N. auto.
  - destruct (step user resample series st o) as [st1 x] eqn:Es. destruct (run user resample series st1 ops) as [st2 ys] eqn:Er. intros [= <- <-].
    destruct (before_step _ _ _ _ _ _ HB Ho Es) as (N' & HB' & V). destruct (IH _ _ _ _ HB' Er) as (N'' & HB'' & HG). exists N''. split; [exact HB''|].
    intros g Hg. rewrite (HG g Hg). apply (w_g0 _ _ _ _ _ _ V), Hg.
Qed.

(** A load between other calls. *)
Theorem load_own (N : nat -> Prop) st pre post st' xs : (forall l, ~ inl l) -> Before N None st -> Forall (foreign None) pre ->
  (forall g, Forall (other g) post) -> run user resample series st (pre ++ Load a :: post) = (st', xs) ->
  exists xs1 g ys lim, xs = xs1 ++ Made g :: ys /\ length xs1 = length pre /\ (resampling a = true -> own_limit ds a lim) /\
    yields (map (asked user resample a ns lim) cs) (answers_of g post ys).
Proof.
  intros Hn HB Hpre Hpost. rewrite run_app. destruct (run user resample series st pre) as [st1 xs1] eqn:E1. destruct (before_run _ _ Hpre _ _ _ _ HB E1) as (N1 & HB1 & _).
  cbn [run step]. destruct (load st1 a) as [st2 r] eqn:El. destruct (own_load _ _ _ _ _ HB1 El) as (N2 & L & x & d & lim & -> & I2 & HL & ND & OG & HS & HG & HLim).
  set (st3 := mkState _ _ _ _ _). set (g := length (gens st2)).
  destruct (run user resample series st3 post) as [st4 ys] eqn:E4. intros [= <- <-]. exists xs1, g, ys, lim. split; [reflexivity|]. split; [eapply run_length; exact E1|].
  split; [intros HR; exact (proj2 (HLim HR))|].
  assert (HA : After N2 g (length (sources st1)) d lim false L cs st3).
  { split; auto.
    - assert (B : gen_bound st2 x).
      { destruct OG as [[-> _]|(m & -> & Hm & Hk)]; cbn; [eapply nth_some_lt; exact HS|]. apply (i_N _ _ _ _ _ _ _ _ _ _ I2), HL.
        destruct (lref_in (RSource (length (sources st1))) L) as [K|(m' & K & Hm')]; rewrite Hm in K; [discriminate|injection K as ->; exact Hm']. }
      clear -I2 B. destruct I2 as [i_nl0 i_nd0 i_lists0 i_up0 i_gens0 i_N0 i_s1 i_g1 v_up0 v_gens0 v_out0 v_in0]. split; auto.
      + intros i y H. cbn in H. apply nth_app_inv in H. destruct H as [H|[_ ->]]; [exact (i_gens0 _ _ H)|exact B].
      + intros g' [= <-]. cbn. rewrite app_length. cbn. subst g. lia.
      + intros i y Hi H. cbn in H. apply nth_app_inv in H. destruct H as [H|[-> _]]; [eapply v_gens0; [|exact H]; discriminate|]. exfalso. apply Hi. reflexivity.
    - intros HR. exact (proj1 (HLim HR)).
    - unfold own_state. cbn [gens nodes st3]. unfold g. rewrite nth_app_new. destruct OG as [[-> E]|(m & -> & Hm & Hk)].
      + left. reflexivity.
      + right. left. split; [exact Hn|]. exists m. auto. }
  pose proof (after_run _ _ _ _ _ _ _ (Hpost g) _ _ _ _ _ HA E4) as Y. unfold own_result in Y. cbn in Y. exact Y.
Qed.

(** A power_series between other calls. *)
Theorem series_own (N : nat -> Prop) st pre post st' xs : Before N None st -> Forall (foreign None) pre ->
  (forall g, Forall (other g) post) -> run user resample series st (pre ++ Series a :: post) = (st', xs) ->
  exists xs1 g ys lim, xs = xs1 ++ Made g :: ys /\ length xs1 = length pre /\ (resampling a = true -> own_limit ds a lim) /\
    yields (map (fun c => series (asked user resample a ns lim c)) cs) (answers_of g post ys).
Proof.
  intros HB Hpre Hpost. rewrite run_app. destruct (run user resample series st pre) as [st1 xs1] eqn:E1. destruct (before_run _ _ Hpre _ _ _ _ HB E1) as (N1 & HB1 & _).
  cbn [run step]. set (st3 := mkState _ _ _ _ _). set (g := length (gens st1)).
  destruct (run user resample series st3 post) as [st4 ys] eqn:E4. intros [= <- <-].
  assert (HB3 : Before N1 (Some g) st3).
  { destruct HB1 as [I1 B1 B2 B3 B4 B5]. split; auto. clear -I1. destruct I1 as [i_nl0 i_nd0 i_lists0 i_up0 i_gens0 i_N0 i_s1 i_g1 v_up0 v_gens0 v_out0 v_in0]. split; auto.
    - intros i y H. cbn in H. apply nth_app_inv in H. destruct H as [H|[_ ->]]; [exact (i_gens0 _ _ H)|exact I].
    - intros g' [= <-]. cbn. rewrite app_length. cbn. subst g. lia.
    - intros i y Hi H. cbn in H. apply nth_app_inv in H. destruct H as [H|[-> _]]; [eapply v_gens0; [|exact H]; discriminate|]. exfalso. apply Hi. reflexivity. }
  assert (HG3 : nth_error (gens st3) g = Some (GLazy a)) by (cbn; apply nth_app_new).
  assert (Y : exists lim, (resampling a = true -> own_limit ds a lim) /\ yields (map (own_result lim true) cs) (answers_of g post ys)).
  { specialize (Hpost g). clear -Hpost E4 HB3 HG3 Ha Hsrc Hnd Hper Hopts Hds Hpds Hout Hinl Hdis Hpl Hpd. clearbody st3 g. clear st1.
    revert N1 st3 ys HB3 HG3 E4. induction Hpost as [|o ops Ho Hops IH]; intros N st ys HB HG; cbn [run].
    - intros [= <- <-]. destruct (own_limit_ex st N (Some g) HB) as [lim Hlim]. exists lim. split; [exact Hlim|]. reflexivity.
    - destruct (step user resample series st o) as [st1 x] eqn:Es. destruct (run user resample series st1 ops) as [st2 xs] eqn:Er. intros [= <- <-].
      destruct Ho as [Ho|Ho].
      + destruct (before_step _ _ _ _ _ _ HB Ho Es) as (N' & HB' & V). rewrite <- (w_g0 _ _ _ _ _ _ V g eq_refl) in HG.
        destruct (IH _ _ _ HB' HG Er) as (lim & Hlim & Y). exists lim. split; [exact Hlim|].
        destruct o as [b|b|g']; cbn [answers_of]; try exact Y. cbn in Ho. rewrite (proj2 (Nat.eqb_neq g' g)) by congruence. exact Y.
      + subst o. cbn [answers_of]. rewrite Nat.eqb_refl. cbn [step] in Es. unfold pull in Es. rewrite HG in Es.
        destruct (load st a) as [st3 r] eqn:El. destruct (own_load _ _ _ _ _ HB El) as (N2 & L & y & d & lim & -> & I2 & HL & ND & OG & HS & HGE & HLim).
        exists lim. split; [intros HR; exact (proj2 (HLim HR))|].
        assert (HL' : resampling a = true -> nth_error (dicts st3) d = Some (Some lim)) by (intros HR; exact (proj1 (HLim HR))).
        pose proof (after_advance N2 g (length (sources st)) d lim true L cs st3 I2 HL ND HS HL') as AA.
        assert (ES : start user resample series st3 g y true = advance user resample series st3 g (own_funs a d ns) true (length (sources st))).
        { destruct OG as [[-> E]|(m & -> & Hm & Hk)]; [reflexivity|]. cbn [start]. now rewrite (own_chain _ _ _ _ _ _ _ _ I2 HL ND Hm Hk). }
        rewrite ES in Es. clear ES. destruct cs as [|c r]; destruct AA as (st' & E' & HA'); rewrite E' in Es; injection Es as <- <-;
          pose proof (after_run _ _ _ _ _ _ _ Hops _ _ _ _ _ HA' Er) as Y; [apply yields_stop|apply yields_cons]; exact Y. }
  destruct Y as (lim & Hlim & Y). exists xs1, g, ys, lim. split; [reflexivity|]. split; [eapply run_length; exact E1|]. split; [exact Hlim|exact Y].
Qed.
End J.
