(** Proofs about being on. *)
From Verif Require Import Base ActivationsModel ActivationsSpec ActivationsProofs OnModel OnSpec.
Open Scope nat_scope.

Lemma least_spec l : forall x, smallest (fun u => In u (x :: l)) (least x l).
Proof.
  induction l as [|y l IH]; intros x; cbn [least].
  - split; [left; reflexivity|]. intros u [->|[]]. lia.
  - destruct (IH (if (y <? x)%Z then y else x)) as [H1 H2]. destruct (y <? x)%Z eqn:E.
    + apply Z.ltb_lt in E. split; [right; exact H1|]. intros u [<-|H]; [|apply H2; exact H]. specialize (H2 y (or_introl eq_refl)). lia.
    + apply Z.ltb_ge in E. split; [destruct H1 as [<-|H1]; [left; reflexivity|right; right; exact H1]|].
      intros u [<-|[<-|H]]; [apply H2; left; reflexivity| |apply H2; right; exact H]. specialize (H2 x (or_introl eq_refl)). lia.
Qed.

Lemma greatest_spec l : forall x, largest (fun u => In u (x :: l)) (greatest x l).
Proof.
  induction l as [|y l IH]; intros x; cbn [greatest].
  - split; [left; reflexivity|]. intros u [->|[]]. lia.
  - destruct (IH (if (x <? y)%Z then y else x)) as [H1 H2]. destruct (x <? y)%Z eqn:E.
    + apply Z.ltb_lt in E. split; [right; exact H1|]. intros u [<-|H]; [|apply H2; exact H]. specialize (H2 y (or_introl eq_refl)). lia.
    + apply Z.ltb_ge in E. split; [destruct H1 as [<-|H1]; [left; reflexivity|right; right; exact H1]|].
      intros u [<-|[<-|H]]; [apply H2; left; reflexivity| |apply H2; right; exact H]. specialize (H2 x (or_introl eq_refl)). lia.
Qed.

Lemma appliance_thm types a t : appliance_threshold types a = Ok t <-> has_threshold types a t.
Proof.
  unfold appliance_threshold, type_of. split.
  - destruct (a_threshold a) as [u|] eqn:E1; [intros [= <-]; apply own; exact E1|].
    destruct (a_nominal a) as [[u|]|] eqn:E2; [intros [= <-]; apply nominal; assumption| |];
    (destruct (types (a_type a)) as [ty|] eqn:E3; cbn; [|discriminate]; destruct (ty_threshold ty) as [u|] eqn:E4; intros [= <-];
     [eapply from_type|eapply ten]; eauto; congruence).
  - intros H. destruct H as [t E1|t E1 E2|ty t E1 E2 E3 E4|ty E1 E2 E3 E4]; rewrite E1; [reflexivity|rewrite E2; reflexivity| |];
    (destruct (a_nominal a) as [[u|]|]; [exfalso; apply (E2 u); reflexivity| |]; rewrite E3; cbn; rewrite E4; reflexivity).
Qed.

Lemma appliance_error types a e : appliance_threshold types a = Err e -> e = KeyError /\ ~ known types a /\ forall t, ~ has_threshold types a t.
Proof.
  intros H. split; [|split].
  - unfold appliance_threshold, type_of in H. destruct (a_threshold a); [discriminate|]. destruct (a_nominal a) as [[u|]|]; [discriminate| |]; destruct (types (a_type a)); cbn in H; congruence.
  - intros K. unfold appliance_threshold, type_of in H. destruct (a_threshold a); [discriminate|]. unfold known in K. destruct (a_nominal a) as [[u|]|]; [discriminate| |]; destruct (types (a_type a)); cbn in H; congruence.
  - intros t Ht. apply appliance_thm in Ht. congruence.
Qed.

Lemma mapM_ok_iff {A B} (f : A -> res B) l ys : mapM f l = Ok ys <-> Forall2 (fun x y => f x = Ok y) l ys.
Proof.
  revert ys. induction l as [|x l IH]; intros ys; cbn.
  - split; [intros [= <-]; constructor|intros H; inversion H; reflexivity].
  - split.
    + destruct (f x) as [y|] eqn:E; cbn; [|discriminate]. destruct (mapM f l) as [zs|] eqn:F; cbn; [|discriminate]. intros [= <-]. constructor; [exact E|]. apply IH. reflexivity.
    + intros H. inversion H as [|x' y l' zs Hx Hr]; subst. rewrite Hx. cbn. apply IH in Hr. rewrite Hr. reflexivity.
Qed.

Lemma mapM_err {A B} (f : A -> res B) l e : mapM f l = Err e -> exists x, In x l /\ f x = Err e.
Proof.
  induction l as [|x l IH]; cbn; [discriminate|]. destruct (f x) as [y|] eqn:E; cbn.
  - destruct (mapM f l) as [zs|] eqn:F; cbn; [discriminate|]. intros [= <-]. destruct (IH eq_refl) as (z & Hz & Ez). exists z. auto.
  - intros [= <-]. exists x. auto.
Qed.

Lemma Forall2_in_l {A B} (R : A -> B -> Prop) l l' x : Forall2 R l l' -> In x l -> exists y, In y l' /\ R x y.
Proof. induction 1 as [|a b l l' H HF IH]; [contradiction|]. intros [<-|Hx]; [exists b; split; [left; reflexivity|exact H]|]. destruct (IH Hx) as (y & H1 & H2). exists y. split; [right; exact H1|exact H2]. Qed.
Lemma Forall2_in_r {A B} (R : A -> B -> Prop) l l' y : Forall2 R l l' -> In y l' -> exists x, In x l /\ R x y.
Proof. induction 1 as [|a b l l' H HF IH]; [contradiction|]. intros [<-|Hx]; [exists a; split; [left; reflexivity|exact H]|]. destruct (IH Hx) as (z & H1 & H2). exists z. split; [right; exact H1|exact H2]. Qed.

(** The threshold of a meter. *)
Lemma least_thm types l t : meter_threshold types l = Ok t ->
  (l = [] /\ t = 10%Z) \/ (smallest (fun u => exists a, In a l /\ has_threshold types a u) t /\ forall a, In a l -> exists u, has_threshold types a u).
Proof.
  unfold meter_threshold. destruct l as [|a0 l0]; [intros [= <-]; left; split; reflexivity|]. set (l := a0 :: l0) in *. right.
  destruct (mapM (appliance_threshold types) l) as [ys|] eqn:E; cbn in H; [|discriminate]. apply mapM_ok_iff in E.
  destruct ys as [|x r]; [discriminate|]. injection H as <-. destruct (least_spec r x) as [H1 H2]. split; [split|].
  - destruct (Forall2_in_r _ _ _ _ E H1) as (a & Ha & Et). exists a. split; [exact Ha|]. apply appliance_thm. exact Et.
  - intros u (a & Ha & Hu). apply H2. destruct (Forall2_in_l _ _ _ _ E Ha) as (y & Hy & Ey). apply appliance_thm in Hu. congruence.
  - intros a Ha. destruct (Forall2_in_l _ _ _ _ E Ha) as (y & Hy & Ey). exists y. apply appliance_thm. exact Ey.
Qed.

Lemma threshold_error types l e : meter_threshold types l = Err e <-> e = KeyError /\ exists a, In a l /\ forall u, ~ has_threshold types a u.
Proof.
  unfold meter_threshold. split.
  - destruct l as [|a0 l0]; [discriminate|]. set (l := a0 :: l0) in *. destruct (mapM (appliance_threshold types) l) as [ys|e'] eqn:E; cbn.
    + apply mapM_ok_iff in E. destruct ys as [|x r]; [inversion E|discriminate].
    + intros [= <-]. apply mapM_err in E. destruct E as (a & Ha & Ea). apply appliance_error in Ea. destruct Ea as (-> & _ & Hn). split; [reflexivity|]. exists a. auto.
  - intros (-> & a & Ha & Hn). destruct l as [|a0 l0]; [contradiction|]. set (l := a0 :: l0) in *. destruct (mapM (appliance_threshold types) l) as [ys|e'] eqn:E; cbn.
    + apply mapM_ok_iff in E. destruct (Forall2_in_l _ _ _ _ E Ha) as (y & Hy & Ey). apply appliance_thm in Ey. destruct (Hn _ Ey).
    + apply mapM_err in E. destruct E as (b & Hb & Eb). apply appliance_error in Eb. destruct Eb as (-> & _). reflexivity.
Qed.

(** A further appliance never raises the threshold. *)
Lemma threshold_mono types l l' t t' : l <> [] -> (forall a, In a l -> In a l') -> meter_threshold types l = Ok t -> meter_threshold types l' = Ok t' -> (t' <= t)%Z.
Proof.
  intros Hl Hi H H'. destruct (least_thm _ _ _ H) as [[-> _]|[[(a & Ha & Hta) _] _]]; [contradiction|].
  destruct (least_thm _ _ _ H') as [[-> _]|[[_ H2] _]]; [destruct (Hi a Ha)|]. apply H2. exists a. auto.
Qed.

(** Durations. *)
Lemma longest_thm attr types l : (Forall (known types) l ->
  exists t, longest attr types l = Ok t /\ ((t = 0%Z /\ forall v, ~ some_type_says attr types l v) \/ largest (some_type_says attr types l) t)) /\
  (~ Forall (known types) l -> longest attr types l = Err KeyError).
Proof.
  unfold longest. set (f := fun a => do ty <- type_of types a; Ok (match attr ty with Some v => [v] | None => [] end)). split.
  - intros HK. destruct (mapM f l) as [ys|e] eqn:E; cbn.
    + apply mapM_ok_iff in E. assert (HI : forall v, In v (concat ys) <-> some_type_says attr types l v).
      { intros v. rewrite in_concat. split.
        - intros (y & Hy & Hv). destruct (Forall2_in_r _ _ _ _ E Hy) as (a & Ha & Ea). unfold f, type_of in Ea. destruct (types (a_type a)) as [ty|] eqn:Ety; [|discriminate].
          cbn in Ea. injection Ea as <-. destruct (attr ty) as [w|] eqn:Ew; [|contradiction]. destruct Hv as [<-|[]]. exists a, ty. auto.
        - intros (a & ty & Ha & Ety & Ev). destruct (Forall2_in_l _ _ _ _ E Ha) as (y & Hy & Ey). exists y. split; [exact Hy|].
          unfold f, type_of in Ey. rewrite Ety in Ey. cbn in Ey. rewrite Ev in Ey. injection Ey as <-. left. reflexivity. }
      destruct (concat ys) as [|x r]; eexists; (split; [reflexivity|]).
      * left. split; [reflexivity|]. intros v Hv. apply HI in Hv. exact Hv.
      * right. destruct (greatest_spec r x) as [H1 H2]. split; [apply HI; exact H1|]. intros u Hu. apply H2. apply HI. exact Hu.
    + exfalso. apply mapM_err in E. destruct E as (a & Ha & Ea). rewrite Forall_forall in HK. specialize (HK a Ha). unfold known in HK. unfold f, type_of in Ea. destruct (types (a_type a)); [discriminate|apply HK; reflexivity].
  - intros HN. destruct (mapM f l) as [ys|e] eqn:E; cbn.
    + exfalso. apply HN. apply Forall_forall. intros a Ha. apply mapM_ok_iff in E. destruct (Forall2_in_l _ _ _ _ E Ha) as (y & Hy & Ey). unfold known. unfold f, type_of in Ey. destruct (types (a_type a)); [discriminate|discriminate Ey].
    + apply mapM_err in E. destruct E as (a & Ha & Ea). unfold f, type_of in Ea. destruct (types (a_type a)); cbn in Ea; congruence.
Qed.

(** When on. *)
Lemma is_on_thm threshold s : is_on threshold s = true <-> exists v, snd s = Some v /\ (threshold <= v)%Z.
Proof. unfold is_on. destruct (snd s) as [v|]; [rewrite Z.leb_le; split; [intros H; exists v; auto|intros (w & [= <-] & H); exact H]|]. split; [discriminate|intros (w & D & _); discriminate]. Qed.

Lemma when_on_thm types apps given chunks out : when_on types apps given chunks = (out, None) ->
  exists threshold, or_default given (meter_threshold types apps) = Ok threshold /\
    Forall2 (Forall2 (fun s r => fst r = fst s /\ (snd r = true <-> exists v, snd s = Some v /\ (threshold <= v)%Z))) chunks out.
Proof.
  unfold when_on. destruct (or_default given (meter_threshold types apps)) as [threshold|]; [|discriminate]. intros [= <-]. exists threshold. split; [reflexivity|].
  induction chunks as [|c cs IH]; [constructor|]. constructor; [|exact IH]. induction c as [|s c IHc]; [constructor|]. constructor; [|exact IHc]. cbn [fst snd]. split; [reflexivity|apply is_on_thm].
Qed.

(** Activations of a meter. *)
Lemma meter_activations_thm types apps min_off min_on border threshold chunks out : Forall time_ordered chunks ->
  meter_activations types apps min_off min_on border threshold chunks = Ok out ->
  exists thr moff mon outs, or_default threshold (meter_threshold types apps) = Ok thr /\ or_default min_off (min_off_duration types apps) = Ok moff /\
    or_default min_on (min_on_duration types apps) = Ok mon /\ out = concat outs /\
    Forall2 (fun c o => exists l, on_periods thr c moff l /\ report c mon border l o) chunks outs.
Proof.
  intros HT. unfold meter_activations. destruct (or_default threshold _) as [thr|]; cbn; [|discriminate]. destruct (or_default min_off _) as [moff|]; cbn; [|discriminate].
  destruct (or_default min_on _) as [mon|]; cbn; [|discriminate]. destruct (mapM _ chunks) as [outs|] eqn:E; cbn; [|discriminate]. intros [= <-].
  exists thr, moff, mon, outs. repeat (split; [reflexivity|]). apply mapM_ok_iff in E. clear -E HT.
  induction E as [|c o cs os Hc Hr IH]; [constructor|]. apply Forall_cons_iff in HT. destruct HT as [H1 H2]. constructor; [|apply IH; exact H2].
  destruct (activations_thm c thr moff mon border H1) as (l & o' & E' & H3 & H4). rewrite Hc in E'. injection E' as <-. exists l. auto.
Qed.

Lemma meter_activations_works types apps min_off min_on border threshold chunks : Forall time_ordered chunks -> Forall (known types) apps ->
  exists out, meter_activations types apps min_off min_on border threshold chunks = Ok out.
Proof.
  intros HT HK. unfold meter_activations.
  assert (H1 : exists thr, or_default threshold (meter_threshold types apps) = Ok thr).
  { destruct threshold as [t|]; [exists t; reflexivity|]. cbn. destruct (meter_threshold types apps) as [t|e] eqn:E; [exists t; reflexivity|].
    apply threshold_error in E. destruct E as (_ & a & Ha & Hn). rewrite Forall_forall in HK. exfalso.
    destruct (appliance_threshold types a) as [t|e'] eqn:Ea; [apply (Hn t); apply appliance_thm; exact Ea|]. apply appliance_error in Ea. destruct Ea as (_ & Hk & _). apply Hk. apply HK. exact Ha. }
  assert (H2 : forall attr given, exists v, or_default given (longest attr types apps) = Ok v).
  { intros attr [v|]; [exists v; reflexivity|]. destruct (longest_thm attr types apps) as [H _]. destruct (H HK) as (t & Et & _). exists t. exact Et. }
  destruct H1 as (thr & ->). destruct (H2 ty_min_off min_off) as (moff & E2). destruct (H2 ty_min_on min_on) as (mon & E3). unfold min_off_duration, min_on_duration. rewrite E2, E3. cbn.
  assert (H3 : exists outs, mapM (fun c => get_activations c moff mon border thr) chunks = Ok outs).
  { clear -HT. induction chunks as [|c cs IH]; [exists []; reflexivity|]. apply Forall_cons_iff in HT. destruct HT as [HT1 HT2]. destruct (IH HT2) as (outs & E). destruct (activations_thm c thr moff mon border HT1) as (l & o & E' & _).
    exists (o :: outs). cbn. rewrite E', E. reflexivity. }
  destruct H3 as (outs & ->). cbn. eexists. reflexivity.
Qed.

(** Vampire power. *)
Lemma vampire_thm l : (forall v, vampire_power (Some l) = Ok (Some v) <-> smallest (fun u => In (Some u) (map snd l)) v) /\
  (vampire_power (Some l) = Ok None <-> forall u, ~ In (Some u) (map snd l)).
Proof.
  unfold vampire_power. set (vs := concat _).
  assert (HI : forall u, In u vs <-> In (Some u) (map snd l)).
  { intros u. unfold vs. induction l as [|[t [x|]] l IH]; cbn [map concat snd app In]; [tauto| |]; rewrite IH; [|intuition congruence]. split; intros [H|H]; auto; left; congruence. }
  clearbody vs. destruct vs as [|x r].
  - split; [intros v; split; [discriminate|]|].
    + intros [H _]. apply HI in H. destruct H.
    + split; [intros _ u H; apply HI in H; destruct H|reflexivity].
  - destruct (least_spec r x) as [H1 H2]. split; [intros v; split|].
    + intros [= <-]. split; [apply HI; exact H1|]. intros u Hu. apply H2. apply HI. exact Hu.
    + intros [H3 H4]. f_equal. f_equal. apply Z.le_antisymm; [apply H2; apply HI; exact H3|apply H4; apply HI; exact H1].
    + split; [discriminate|]. intros H. exfalso. apply (H x). apply HI. left. reflexivity.
Qed.
