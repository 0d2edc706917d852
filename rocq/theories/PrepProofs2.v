From Coq Require Import Lia.
From Verif Require Import Base PrepModel PrepSpec PrepProofs.
Import List. Open Scope nat_scope.

Section I.
Context {C : Type}.
Variables (user : nat -> C -> C) (resample : Z -> Z -> C -> C) (series : C -> C).
Variables (nl nd : nat) (outl inl : nat -> Prop) (pl pd : option nat).
Hypothesis Hout : forall l, outl l -> l < nl /\ Some l <> pl.
Hypothesis Hinl : forall l, inl l -> l < nl.
Hypothesis Hdis : forall l, outl l -> inl l -> False.
Hypothesis Hpl : forall l, pl = Some l -> l < nl.
Hypothesis Hpd : forall d, pd = Some d -> d < nd.

Definition keeps_opts (b : args C) : Prop := forall d, pd = Some d -> a_opts b = Some d -> resampling b = false.
Definition outside (b : args C) : Prop := keeps_opts b /\ forall l, a_prep b = Some l -> outl l.
Definition inside (b : args C) : Prop := keeps_opts b /\ exists l, a_prep b = Some l /\ inl l /\ (resampling b = true -> Some l <> pl).

Definition src_ref (s0 : option nat) (N : nat -> Prop) (r : ref) : Prop := match r with RNode m => ~ N m | RSource s => Some s <> s0 end.
Definition gen_ok (s0 : option nat) (N : nat -> Prop) (x : gst C) : Prop :=
  match x with GWait m _ => ~ N m | GRun _ _ s => Some s <> s0 | GLazy b => outside b \/ inside b | GDone => True end.

Definition ref_bound (st : state C) (r : ref) : Prop := match r with RNode m => m < length (nodes st) | RSource s => s < length (sources st) end.
Definition gen_bound (st : state C) (x : gst C) : Prop :=
  match x with GWait m _ => m < length (nodes st) | GRun _ _ s => s < length (sources st) | _ => True end.

Record Inv (N : nat -> Prop) (s0 g0 : option nat) (st : state C) : Prop := {
  i_nl : nl <= length (lists st);
  i_nd : nd <= length (dicts st);
  i_lists : forall l ns m, nth_error (lists st) l = Some ns -> In m ns -> m < length (nodes st);
  i_up : forall m r f, nth_error (nodes st) m = Some (Some r, f) -> ref_bound st r;
  i_gens : forall i x, nth_error (gens st) i = Some x -> gen_bound st x;
  i_N : forall m, N m -> m < length (nodes st);
  i_s0 : forall s, s0 = Some s -> s < length (sources st);
  i_g0 : forall g, g0 = Some g -> g < length (gens st);
  v_up : forall m r f, ~ N m -> nth_error (nodes st) m = Some (Some r, f) -> src_ref s0 N r;
  v_gens : forall i x, Some i <> g0 -> nth_error (gens st) i = Some x -> gen_ok s0 N x;
  v_out : forall l ns m, outl l -> nth_error (lists st) l = Some ns -> In m ns -> ~ N m;
  v_in : forall l ns m, inl l -> nth_error (lists st) l = Some ns -> In m ns -> N m
}.

Record View (s0 g0 : option nat) (st st' : state C) : Prop := {
  w_pl : forall l, pl = Some l -> l < length (lists st) -> nth_error (lists st') l = nth_error (lists st) l;
  w_pd : forall d, pd = Some d -> d < length (dicts st) -> nth_error (dicts st') d = nth_error (dicts st) d;
  w_set : forall d v, nth_error (dicts st) d = Some (Some v) -> nth_error (dicts st') d = Some (Some v);
  w_fun : forall m u f, nth_error (nodes st) m = Some (u, f) -> exists u', nth_error (nodes st') m = Some (u', f);
  w_s0 : forall s, s0 = Some s -> nth_error (sources st') s = nth_error (sources st) s;
  w_g0 : forall g, g0 = Some g -> nth_error (gens st') g = nth_error (gens st) g
}.
Lemma view_refl s0 g0 st : View s0 g0 st st.
Proof. split; intros; eauto. Qed.
Lemma view_trans N s0 g0 st1 st2 st3 : Inv N s0 g0 st1 -> Inv N s0 g0 st2 \/ (exists N', Inv N' s0 g0 st2) -> View s0 g0 st1 st2 -> View s0 g0 st2 st3 -> View s0 g0 st1 st3.
Proof.
  intros I1 I2 V1 V2.
  assert (L : nl <= length (lists st2) /\ nd <= length (dicts st2)).
  { destruct I2 as [I2|[N' I2]]; destruct I2; auto. }
  split.
  - intros l Hl L1. rewrite (w_pl _ _ _ _ V2 l Hl); [now apply (w_pl _ _ _ _ V1)|]. specialize (Hpl _ Hl). lia.
  - intros d Hd L1. rewrite (w_pd _ _ _ _ V2 d Hd); [now apply (w_pd _ _ _ _ V1)|]. specialize (Hpd _ Hd). lia.
  - intros d v H. apply (w_set _ _ _ _ V2), (w_set _ _ _ _ V1), H.
  - intros m u f H. destruct (w_fun _ _ _ _ V1 _ _ _ H) as [u' H']. exact (w_fun _ _ _ _ V2 _ _ _ H').
  - intros s H. rewrite (w_s0 _ _ _ _ V2 s H). exact (w_s0 _ _ _ _ V1 s H).
  - intros g H. rewrite (w_g0 _ _ _ _ V2 g H). exact (w_g0 _ _ _ _ V1 g H).
Qed.

(** *** The list part *)
Definition grown (st st' : state C) : Prop := nodes st' = nodes st \/ exists d p, nodes st' = nodes st ++ [(None, Resample p d)].
Lemma grown_nth st st' m u f : grown st st' -> nth_error (nodes st') m = Some (Some u, f) -> nth_error (nodes st) m = Some (Some u, f).
Proof.
  intros [->|(d & p & ->)] H; [exact H|]. apply nth_app_inv in H. destruct H as [H|[_ H]]; [exact H|discriminate].
Qed.
Lemma grown_len st st' : grown st st' -> length (nodes st) <= length (nodes st').
Proof. intros [->|(d & p & ->)]; [lia|]. rewrite app_length. lia. Qed.
Lemma prep_grown st a st' r : prep_facts st a st' r -> grown st st'.
Proof. intros H. destruct (p_nodes _ _ _ _ H) as [E|[_ [d E]]]; [left; exact E|right; eauto]. Qed.

Lemma prep_view s0 g0 N st b st' r : Inv N s0 g0 st -> prep_facts st b st' r -> keeps_opts b ->
  (forall l, pl = Some l -> a_prep b = Some l -> resampling b = false) -> View s0 g0 st st'.
Proof.
  intros HI HP K1 K2. split.
  - intros l Hl L. apply (p_same _ _ _ _ HP); [exact L|]. exact (K2 l Hl).
  - intros d Hd L. apply (p_dsame _ _ _ _ HP); [exact L|]. exact (K1 d Hd).
  - exact (p_dset _ _ _ _ HP).
  - intros m u f H. exists u. destruct (prep_grown _ _ _ _ HP) as [->|(d & p & ->)]; [exact H|]. rewrite nth_app_old; [exact H|]. eapply nth_some_lt; exact H.
  - intros s _. now rewrite (p_sources _ _ _ _ HP).
  - intros g _. now rewrite (p_gens _ _ _ _ HP).
Qed.

Definition plus_fresh (N : nat -> Prop) (st st' : state C) : nat -> Prop :=
  fun m => N m \/ (m = length (nodes st) /\ length (nodes st') = S (length (nodes st))).
Lemma prep_inv s0 g0 N N' st b st' r : Inv N s0 g0 st -> prep_facts st b st' r ->
  (N' = N /\ forall l, a_prep b = Some l -> ~ inl l) \/ (N' = plus_fresh N st st' /\ forall l, a_prep b = Some l -> ~ outl l) ->
  Inv N' s0 g0 st'.
Proof.
  intros HI HP HN. pose proof (prep_grown _ _ _ _ HP) as G. pose proof (grown_len _ _ G) as GL. destruct HI.
  assert (NN : forall m, m < length (nodes st) -> ~ N m -> ~ N' m).
  { intros m L Hm. destruct HN as [[-> _]|[-> _]]; [exact Hm|]. intros [K|[K _]]; [contradiction|lia]. }
  assert (NI : forall m, N m -> N' m).
  { intros m K. destruct HN as [[-> _]|[-> _]]; [exact K|left; exact K]. }
  assert (ref_bound' : forall x, ref_bound st x -> ref_bound st' x).
  { intros [m|s]; cbn; [lia|]. now rewrite (p_sources _ _ _ _ HP). }
  split.
  - pose proof (p_llen _ _ _ _ HP). lia.
  - pose proof (p_dlen _ _ _ _ HP). lia.
  - intros l ns m H Hm. destruct (p_lists _ _ _ _ HP _ _ H) as [H0|(R & L & ns0 & -> & H0)].
    + specialize (i_lists0 _ _ _ H0 Hm). lia.
    + apply in_app_or in Hm. destruct Hm as [Hm|[<-|[]]]; [|lia]. destruct H0 as [[_ H0]|(_ & _ & ->)]; [|destruct Hm].
      specialize (i_lists0 _ _ _ H0 Hm). lia.
  - intros m x f H. apply ref_bound'. eapply i_up0. eapply grown_nth; eassumption.
  - intros i x H. rewrite (p_gens _ _ _ _ HP) in H. specialize (i_gens0 _ _ H). destruct x; cbn in *; try exact I; [lia|]. now rewrite (p_sources _ _ _ _ HP).
  - intros m H. destruct HN as [[-> _]|[-> _]]; [specialize (i_N0 _ H); lia|]. destruct H as [H|[-> H]]; [specialize (i_N0 _ H); lia|lia].
  - intros s H. rewrite (p_sources _ _ _ _ HP). auto.
  - intros g H. rewrite (p_gens _ _ _ _ HP). auto.
  - intros m x f Hm H. apply (grown_nth _ _ _ _ _ G) in H. pose proof (nth_some_lt _ _ _ H) as L.
    assert (Hm' : ~ N m) by auto.
    pose proof (v_up0 _ _ _ Hm' H) as V. destruct x as [m'|s]; cbn in *; [|exact V]. apply NN; [|exact V]. exact (i_up0 _ _ _ H).
  - intros i x Hi H. rewrite (p_gens _ _ _ _ HP) in H. specialize (v_gens0 _ _ Hi H). pose proof (i_gens0 _ _ H) as L. destruct x; cbn in *; auto.
  - intros l ns m Hl H Hm. destruct (p_lists _ _ _ _ HP _ _ H) as [H0|(R & L & ns0 & -> & H0)].
    + apply NN; [eapply i_lists0; eassumption|]. eapply v_out0; eassumption.
    + apply in_app_or in Hm. destruct H0 as [[Ep H0]|(_ & H0 & _)].
      2: { destruct (Hout _ Hl). lia. }
      destruct Hm as [Hm|[<-|[]]]; [apply NN; [eapply i_lists0; eassumption|]; eapply v_out0; eassumption|].
      destruct HN as [[-> _]|[-> K]]; [intros K; specialize (i_N0 _ K); lia|]. exfalso. exact (K _ Ep Hl).
  - intros l ns m Hl H Hm. destruct (p_lists _ _ _ _ HP _ _ H) as [H0|(R & L & ns0 & -> & H0)].
    + apply NI. eapply v_in0; eassumption.
    + apply in_app_or in Hm. destruct H0 as [[Ep H0]|(_ & H0 & _)].
      2: { specialize (Hinl _ Hl). lia. }
      destruct Hm as [Hm|[<-|[]]]; [apply NI; eapply v_in0; eassumption|].
      destruct HN as [[-> K]|[-> _]]; [exfalso; exact (K _ Ep Hl)|]. right. split; [reflexivity|exact L].
Qed.

Definition made_gen (st st' : state C) (ns : list nat) (r : res (gst C)) : Prop :=
  forall x, r = Ok x -> length (sources st') = S (length (sources st)) /\
    (forall m u f, In m ns -> nth_error (nodes st') m = Some (Some u, f) -> u = RSource (length (sources st)) \/ exists m', u = RNode m' /\ In m' ns) /\
    ((x = GRun [] false (length (sources st)) /\ ns = []) \/ exists m, x = GWait m false /\ In m ns).

Lemma connect_inv s0 g0 N st ns src st' r : Inv N s0 g0 st -> (forall m, In m ns -> m < length (nodes st)) ->
  (forall m, In m ns -> ~ N m) \/ (forall m, In m ns -> N m) -> connect_source st ns src = (st', r) ->
  Inv N s0 g0 st' /\ View s0 g0 st st' /\ made_gen st st' ns r /\ ((forall m, In m ns -> ~ N m) -> forall m, N m -> nth_error (nodes st') m = nth_error (nodes st) m) /\ gens st' = gens st /\ length (nodes st') = length (nodes st).
Proof.
  intros HI HB HN. unfold connect_source.
  assert (same : (st, r) = (st', r) -> (forall x, r <> Ok x) -> Inv N s0 g0 st' /\ View s0 g0 st st' /\ made_gen st st' ns r /\
     ((forall m, In m ns -> ~ N m) -> forall m, N m -> nth_error (nodes st') m = nth_error (nodes st) m) /\ gens st' = gens st /\ length (nodes st') = length (nodes st)).
  { intros [= <-] Hr. split; [exact HI|]. split; [apply view_refl|]. split; [|split; [reflexivity|split; reflexivity]]. intros x E. exfalso. exact (Hr x E). }
  destruct src as [cs|e].
  2: { intros [= <- <-]. apply same; [reflexivity|discriminate]. }
  destruct (connect (nodes st) (RSource (length (sources st))) ns) as [[nds last]|e] eqn:E.
  2: { intros [= <- <-]. apply same; [reflexivity|discriminate]. }
  clear same. pose proof (connect_len _ _ _ _ _ E) as EL. pose proof (connect_other _ _ _ _ _ E) as EO. pose proof (connect_closed _ _ _ _ _ E) as EC.
  pose proof (connect_fun _ _ _ _ _ E) as EF. pose proof (connect_last _ _ _ _ _ E) as ELast.
  intros [= <- <-]. destruct HI.
  assert (RB : forall x, ref_bound st x -> ref_bound (mkState (lists st) (dicts st) nds (sources st ++ [cs]) (gens st)) x).
  { intros [m|s]; cbn; [lia|]. rewrite app_length. lia. }
  assert (S0 : Some (length (sources st)) <> s0).
  { intros K. specialize (i_s1 (length (sources st)) (eq_sym K)). lia. }
  split; [|split; [|split; [|split; [|split; [reflexivity|exact EL]]]]].
  - split; cbn [lists dicts nodes sources gens]; auto.
    + intros l ns' m H Hm. rewrite EL. eapply i_lists0; eassumption.
    + intros m x f H. destruct (in_dec Nat.eq_dec m ns) as [Hi|Hi].
      * destruct (EC m x f Hi H) as [->|(m' & -> & Hm')]; cbn; [rewrite app_length; cbn; lia|rewrite EL; auto].
      * rewrite EO in H by exact Hi. apply RB. eapply i_up0; exact H.
    + intros i x H. specialize (i_gens0 _ _ H). destruct x; cbn in *; auto; [lia|]. rewrite app_length. lia.
    + intros m H. rewrite EL. auto.
    + intros s H. rewrite app_length. specialize (i_s1 _ H). lia.
    + intros m x f Hm H. destruct (in_dec Nat.eq_dec m ns) as [Hi|Hi].
      * destruct HN as [HN|HN]; [|exfalso; apply Hm, HN, Hi]. destruct (EC m x f Hi H) as [->|(m' & -> & Hm')]; cbn; [exact S0|apply HN, Hm'].
      * rewrite EO in H by exact Hi. exact (v_up0 _ _ _ Hm H).
  - split; cbn [lists dicts nodes sources gens]; auto. intros s H. apply nth_app_old. apply i_s1. exact H.
  - intros x Hx. cbn [sources nodes]. split; [rewrite app_length; cbn; lia|]. split; [intros m u f Hi H; exact (EC m u f Hi H)|].
    injection Hx as <-. subst last. destruct ns as [|n ns]; [left; auto|]. right. cbn [lref].
    destruct (lref_in (RNode n) ns) as [->|(m & -> & Hm)]; [exists n|exists m]; (split; [reflexivity|]); [now left|now right].
  - intros HO m Hm. apply EO. intros Hi. exact (HO m Hi Hm).
Qed.

Lemma load_inv s0 g0 N st b st' r : Inv N s0 g0 st -> outside b \/ inside b -> load st b = (st', r) ->
  exists N', Inv N' s0 g0 st' /\ View s0 g0 st st' /\ (forall m, N m -> N' m) /\ (forall m, N' m -> N m \/ length (nodes st) <= m) /\ gens st' = gens st /\
    (outside b -> N' = N /\ forall m, N m -> nth_error (nodes st') m = nth_error (nodes st) m) /\
    (forall x, r = Ok x -> length (sources st') = S (length (sources st)) /\
      (outside b -> gen_ok s0 N x /\ gen_bound st' x) /\
      ((x = GRun [] false (length (sources st))) \/ exists m, x = GWait m false /\ forall fuel fs s, chain fuel (nodes st') (RNode m) = Ok (fs, s) ->
          s < length (sources st') /\ (outside b \/ inside b -> Some s <> s0))).
Proof.
  intros HI HB. rewrite load_prep. destruct (prep st b) as [st1 rp] eqn:EP. pose proof (prep_ok _ _ _ _ EP) as HP.
  assert (K : keeps_opts b) by (destruct HB as [[K _]|[K _]]; exact K).
  assert (KL : forall l, pl = Some l -> a_prep b = Some l -> resampling b = false).
  { intros l Hl Hb. destruct (resampling b) eqn:ER; [|reflexivity]. exfalso. destruct HB as [[_ HB]|(_ & l' & H1 & _ & H2)].
    - apply (proj2 (Hout _ (HB _ Hb))). now symmetry.
    - rewrite Hb in H1. injection H1 as <-. apply (H2 ER). now symmetry. }
  pose proof (prep_view _ _ _ _ _ _ _ HI HP K KL) as V1.
  assert (HN : exists N1, Inv N1 s0 g0 st1 /\ (forall m, N m -> N1 m) /\ (forall m, N1 m -> N m \/ length (nodes st) <= m) /\ (outside b -> N1 = N) /\
     (forall ns, rp = Ok ns -> (forall m, In m ns -> m < length (nodes st1)) /\ ((outside b /\ forall m, In m ns -> ~ N1 m) \/ (~ outside b /\ forall m, In m ns -> N1 m)))).
  { destruct HB as [HB|HB].
    - exists N. assert (I1 : Inv N s0 g0 st1). { eapply prep_inv; [exact HI|exact HP|]. left. split; [reflexivity|]. intros l Hl Hi. exact (Hdis _ (proj2 HB _ Hl) Hi). }
      split; [exact I1|]. split; [auto|]. split; [auto|]. split; [auto|]. intros ns ->. destruct (p_result _ _ _ _ HP _ eq_refl) as [(l & Hl & Hb)|[-> _]].
      + split; [intros m Hm; eapply (i_lists _ _ _ _ I1); eassumption|]. left. split; [exact HB|]. intros m Hm.
        destruct Hb as [Hb|[Hb Lb]].
        * eapply (v_out _ _ _ _ I1); [apply (proj2 HB), Hb|exact Hl|exact Hm].
        * destruct (p_lists _ _ _ _ HP _ _ Hl) as [H0|(_ & L & ns0 & -> & [[E _]|(_ & _ & ->)])].
          -- apply nth_some_lt in H0. lia.
          -- congruence.
          -- destruct Hm as [<-|[]]. intros Q. pose proof (i_N _ _ _ _ HI _ Q). lia.
      + split; [intros m []|]. left. split; [exact HB|intros m []].
    - exists (plus_fresh N st st1). destruct HB as (_ & l & Hl & Hi & _).
      assert (I1 : Inv (plus_fresh N st st1) s0 g0 st1). { eapply prep_inv; [exact HI|exact HP|]. right. split; [reflexivity|]. intros l' Hl' Ho. rewrite Hl in Hl'. injection Hl' as <-. exact (Hdis _ Ho Hi). }
      assert (NO : ~ outside b). { intros [_ Ho]. exact (Hdis _ (Ho _ Hl) Hi). }
      split; [exact I1|]. split; [intros m Hm; left; exact Hm|]. split; [intros m [Hm|[-> _]]; [now left|right; lia]|]. split; [contradiction|].
      intros ns ->. destruct (p_result _ _ _ _ HP _ eq_refl) as [(l' & Hl' & Hb)|[_ E]]; [|congruence].
      destruct Hb as [Hb|[Hb _]]; [|congruence]. rewrite Hl in Hb. injection Hb as <-.
      split; [intros m Hm; eapply (i_lists _ _ _ _ I1); eassumption|]. right. split; [exact NO|]. intros m Hm. eapply (v_in _ _ _ _ I1); eassumption. }
  destruct HN as (N1 & I1 & NI & NU & NO & HR).
  assert (G1 : forall m, N m -> nth_error (nodes st1) m = nth_error (nodes st) m).
  { intros m Hm. pose proof (i_N _ _ _ _ HI _ Hm). destruct (prep_grown _ _ _ _ HP) as [->|(d & p & ->)]; [reflexivity|]. now apply nth_app_old. }
  destruct rp as [ns|e].
  - destruct (HR _ eq_refl) as [HB1 HB2]. intros EC.
    assert (HH : (forall m, In m ns -> ~ N1 m) \/ (forall m, In m ns -> N1 m)) by (destruct HB2 as [[_ H]|[_ H]]; auto).
    destruct (connect_inv _ _ _ _ _ _ _ _ I1 HB1 HH EC) as (I2 & V2 & M & SM & GE & NE).
    exists N1. split; [exact I2|]. split; [eapply view_trans; [exact HI|right; exists N1; exact I1|exact V1|exact V2]|]. split; [exact NI|]. split; [exact NU|].
    split; [rewrite GE; apply (p_gens _ _ _ _ HP)|]. split.
    + intros Ho. split; [exact (NO Ho)|]. intros m Hm. destruct HB2 as [[_ H]|[H _]]; [|contradiction]. rewrite SM by (auto). now apply G1.
    + intros x Hx. destruct (M x Hx) as (L & CL & SH). rewrite (p_sources _ _ _ _ HP) in *.
      assert (S0 : Some (length (sources st)) <> s0).
      { intros Q. pose proof (i_s0 _ _ _ _ HI _ (eq_sym Q)). lia. }
      split; [exact L|]. split.
      * intros Ho. destruct HB2 as [[_ H]|[H _]]; [|contradiction]. rewrite (NO Ho) in *.
        destruct SH as [[-> _]|(m & -> & Hm)]; cbn; [split; [exact S0|lia]|]. split; [auto|].
        rewrite NE. auto.
      * destruct SH as [[-> _]|(m & -> & Hm)]; [now left|]. right. exists m. split; [reflexivity|]. intros fuel fs s Hc.
        assert (s = length (sources st)).
        { eapply (chain_closed (nodes st') (fun m => In m ns) (fun s => s = length (sources st))); [|exact Hm|exact Hc].
          intros m' u f Hm' Hu. destruct (CL _ _ _ Hm' Hu) as [->|(m'' & -> & H'')]; [reflexivity|exact H'']. }
        subst s. split; [lia|]. intros _. exact S0.
  - intros [= <- <-]. exists N1. split; [exact I1|]. split; [exact V1|]. split; [exact NI|]. split; [exact NU|]. split; [apply (p_gens _ _ _ _ HP)|].
    split; [intros Ho; split; [exact (NO Ho)|exact G1]|]. intros x; discriminate.
Qed.

(** *** Generators *)
Lemma nth_set_gen st g x i y : nth_error (gens (set_gen (C := C) st g x)) i = Some y -> (i = g /\ y = x) \/ nth_error (gens st) i = Some y.
Proof. cbn. intros H. apply nth_set_inv in H. destruct H as [(-> & -> & _)|[_ H]]; auto. Qed.
Lemma set_gen_inv s0 g0 N st g x : Inv N s0 g0 st -> (Some g <> g0 -> gen_ok s0 N x) -> gen_bound st x -> Inv N s0 g0 (set_gen st g x).
Proof.
  intros HI Hx Hb. destruct HI. split; auto.
  - intros i y H. apply nth_set_gen in H. destruct H as [[-> ->]|H]; [|exact (i_gens0 _ _ H)]. exact Hb.
  - intros g' H. cbn. rewrite set_nth_length. auto.
  - intros i y Hi H. apply nth_set_gen in H. destruct H as [[-> ->]|H]; auto. exact (v_gens0 _ _ Hi H).
Qed.
Lemma set_gen_view s0 g0 st g x : Some g <> g0 -> View s0 g0 st (set_gen st g x).
Proof. intros N. split; cbn; eauto. intros g' H. apply nth_set_neq. congruence. Qed.
Lemma set_source_inv s0 g0 N st s r : Inv N s0 g0 st -> Inv N s0 g0 (mkState (lists st) (dicts st) (nodes st) (set_nth (sources st) s r) (gens st)).
Proof.
  intros HI. destruct HI. split; auto.
  - intros m x f H. specialize (i_up0 _ _ _ H). destruct x; cbn in *; [exact i_up0|]. now rewrite set_nth_length.
  - intros i x H. specialize (i_gens0 _ _ H). destruct x; cbn in *; auto. now rewrite set_nth_length.
  - intros s' H. cbn. rewrite set_nth_length. auto.
Qed.
Lemma advance_inv s0 g0 N st g fs ser s st' r : Inv N s0 g0 st -> Some g <> g0 -> Some s <> s0 -> s < length (sources st) ->
  advance user resample series st g fs ser s = (st', r) -> Inv N s0 g0 st' /\ View s0 g0 st st' /\ nodes st' = nodes st /\ length (gens st') = length (gens st).
Proof.
  intros HI Hg Hs Hb. unfold advance. destruct (nth_error (sources st) s) as [[|c cs]|] eqn:E.
  - intros [= <- <-]. split; [apply set_gen_inv; cbn; auto|]. split; [now apply set_gen_view|]. split; [reflexivity|]. cbn. apply set_nth_length.
  - set (st1 := mkState _ _ _ _ _). pose proof (set_source_inv _ _ _ _ s cs HI) as I1. fold st1 in I1.
    assert (V1 : View s0 g0 st st1). { split; cbn; eauto. intros s' H. apply nth_set_neq. congruence. }
    destruct (apply_nodes user resample (dicts st) fs c) as [c'|e]; intros [= <- <-].
    + split; [apply set_gen_inv; cbn; auto; now rewrite set_nth_length|].
      split; [eapply view_trans; [exact HI|left; exact I1|exact V1|now apply set_gen_view]|]. split; [reflexivity|]. cbn. apply set_nth_length.
    + split; [apply set_gen_inv; cbn; auto|].
      split; [eapply view_trans; [exact HI|left; exact I1|exact V1|now apply set_gen_view]|]. split; [reflexivity|]. cbn. apply set_nth_length.
  - intros [= <- <-]. split; [exact HI|]. split; [apply view_refl|]. auto.
Qed.

Definition grow (N N' : nat -> Prop) (st : state C) : Prop := (forall m, N m -> N' m) /\ forall m, N' m -> N m \/ length (nodes st) <= m.

(** A step of the others: not on generator [g0]. *)
Definition foreign (g0 : option nat) (o : op C) : Prop :=
  match o with Load b => outside b | Series b => outside b \/ inside b | Pull g => Some g <> g0 end.

Lemma pull_foreign s0 g0 N st g st' r : Inv N s0 g0 st -> Some g <> g0 -> pull user resample series st g = (st', r) ->
  exists N', Inv N' s0 g0 st' /\ View s0 g0 st st' /\ grow N N' st /\
    ((forall l, ~ inl l) -> N' = N /\ forall m, N m -> nth_error (nodes st') m = nth_error (nodes st) m).
Proof.
  intros HI Hg. assert (G : grow N N st) by (split; auto). unfold pull. destruct (nth_error (gens st) g) as [x|] eqn:E.
  2: { intros [= <- <-]. exists N. split; [exact HI|]. split; [apply view_refl|]. split; [exact G|]. auto. }
  pose proof (v_gens _ _ _ _ HI _ _ Hg E) as GO. pose proof (i_gens _ _ _ _ HI _ _ E) as GB. destruct x as [m ser|fs ser s|b|].
  - cbn [start]. destruct (chain (S (length (nodes st))) (nodes st) (RNode m)) as [[fs s]|e] eqn:Ec.
    + intros Ea. assert (B : Some s <> s0 /\ s < length (sources st)).
      { split; [eapply (chain_closed (nodes st) (fun m => ~ N m) (fun s => Some s <> s0)); [|exact GO|exact Ec]|
                eapply (chain_closed (nodes st) (fun _ => True) (fun s => s < length (sources st))); [|exact I|exact Ec]].
        - intros m' u f Hm Hu. exact (v_up _ _ _ _ HI _ _ _ Hm Hu).
        - intros m' u f _ Hu. pose proof (i_up _ _ _ _ HI _ _ _ Hu) as Q. destruct u; [exact I|exact Q]. }
      destruct (advance_inv _ _ _ _ _ _ _ _ _ _ HI Hg (proj1 B) (proj2 B) Ea) as (I1 & V1 & N1 & _).
      exists N. split; [exact I1|]. split; [exact V1|]. split; [exact G|]. intros _. rewrite N1. auto.
    + intros [= <- <-]. exists N. split; [apply set_gen_inv; cbn; auto|]. split; [now apply set_gen_view|]. split; [exact G|]. auto.
  - intros Ea. destruct (advance_inv _ _ _ _ _ _ _ _ _ _ HI Hg GO GB Ea) as (I1 & V1 & N1 & _).
    exists N. split; [exact I1|]. split; [exact V1|]. split; [exact G|]. intros _. rewrite N1. auto.
  - destruct (load st b) as [st1 rl] eqn:El. destruct (load_inv _ _ _ _ _ _ _ HI GO El) as (N1 & I1 & V1 & NI & NU & GE & NO & HX).
    assert (NO' : (forall l, ~ inl l) -> N1 = N /\ forall m, N m -> nth_error (nodes st1) m = nth_error (nodes st) m).
    { intros Hn. apply NO. destruct GO as [GO|(_ & l & _ & Q & _)]; [exact GO|exfalso; exact (Hn _ Q)]. }
    destruct rl as [x|e].
    + destruct (HX _ eq_refl) as (L & _ & SH). intros Es.
      assert (Q : exists N', Inv N' s0 g0 st' /\ View s0 g0 st1 st' /\ nodes st' = nodes st1 /\ N' = N1).
      { destruct SH as [->|(m & -> & Hc)]; cbn [start] in Es.
        - assert (S0 : Some (length (sources st)) <> s0). { intros Q. pose proof (i_s0 _ _ _ _ HI _ (eq_sym Q)). lia. }
          destruct (advance_inv _ _ _ _ _ _ _ _ _ _ I1 Hg S0 ltac:(lia) Es) as (I2 & V2 & N2 & _). exists N1. auto.
        - destruct (chain (S (length (nodes st1))) (nodes st1) (RNode m)) as [[fs s]|e] eqn:Ec.
          + destruct (Hc _ _ _ Ec) as [B1 B2]. destruct (advance_inv _ _ _ _ _ _ _ _ _ _ I1 Hg (B2 GO) B1 Es) as (I2 & V2 & N2 & _). exists N1. auto.
          + injection Es as <- <-. exists N1. split; [apply set_gen_inv; cbn; auto|]. split; [now apply set_gen_view|]. auto. }
      destruct Q as (N' & I2 & V2 & N2 & ->). exists N1. split; [exact I2|]. split; [eapply view_trans; [exact HI|right; exists N1; exact I1|exact V1|exact V2]|].
      split; [split; auto|]. rewrite N2. exact NO'.
    + intros [= <- <-]. exists N1. split; [apply set_gen_inv; cbn; auto|].
      split; [eapply view_trans; [exact HI|right; exists N1; exact I1|exact V1|now apply set_gen_view]|]. split; [split; auto|]. exact NO'.
  - intros [= <- <-]. exists N. split; [exact HI|]. split; [apply view_refl|]. split; [exact G|]. auto.
Qed.

Lemma add_gen_inv s0 g0 N st x : Inv N s0 g0 st -> gen_ok s0 N x -> gen_bound st x -> Inv N s0 g0 (mkState (lists st) (dicts st) (nodes st) (sources st) (gens st ++ [x])).
Proof.
  intros HI Hx Hb. destruct HI. split; auto.
  - intros i y H. cbn in H. apply nth_app_inv in H. destruct H as [H|[_ ->]]; [exact (i_gens0 _ _ H)|exact Hb].
  - intros g H. cbn. rewrite app_length. specialize (i_g1 _ H). lia.
  - intros i y Hi H. cbn in H. apply nth_app_inv in H. destruct H as [H|[_ ->]]; [exact (v_gens0 _ _ Hi H)|exact Hx].
Qed.
Lemma add_gen_view s0 g0 N st x : Inv N s0 g0 st -> View s0 g0 st (mkState (lists st) (dicts st) (nodes st) (sources st) (gens st ++ [x])).
Proof. intros HI. split; cbn; eauto. intros g H. apply nth_app_old. exact (i_g0 _ _ _ _ HI _ H). Qed.

Lemma step_foreign s0 g0 N st o st' x : Inv N s0 g0 st -> foreign g0 o -> step user resample series st o = (st', x) ->
  exists N', Inv N' s0 g0 st' /\ View s0 g0 st st' /\ grow N N' st /\
    ((forall l, ~ inl l) -> N' = N /\ forall m, N m -> nth_error (nodes st') m = nth_error (nodes st) m).
Proof.
  intros HI Hf. assert (G : grow N N st) by (split; auto). destruct o as [b|b|g]; cbn [step foreign] in *.
  - destruct (load st b) as [st1 [y|e]] eqn:El; destruct (load_inv _ _ _ _ _ _ _ HI (or_introl Hf) El) as (N1 & I1 & V1 & NI & NU & GE & NO & HX);
      destruct (NO Hf) as [-> NS]; intros [= <- <-].
    + destruct (HX _ eq_refl) as (_ & K & _). destruct (K Hf) as [K1 K2]. exists N. split; [now apply add_gen_inv|].
      split; [eapply view_trans; [exact HI|left; exact I1|exact V1|eapply add_gen_view; exact I1]|]. split; [exact G|]. auto.
    + exists N. auto.
  - intros [= <- <-]. exists N. split; [apply add_gen_inv; cbn; auto|]. split; [eapply add_gen_view; exact HI|]. split; [exact G|]. auto.
  - destruct (pull user resample series st g) as [st1 [c|e]] eqn:Ep; intros [= <- <-]; exact (pull_foreign _ _ _ _ _ _ _ HI Hf Ep).
Qed.
End I.
