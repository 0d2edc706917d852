(** Proofs about the conversion of COMBED (C111). *)
From Verif Require Import Base CombedModel CombedSpec.
Import List. Open Scope list_scope. Open Scope nat_scope.

Section Proofs.
  Context {M File Series Table : Type}.
  Variable direct nested : M -> attribute -> option File.
  Variable read : File -> res Series.
  Variable join : list (attribute * Series) -> res Table.
  Notation avail := (available direct nested).
  Notation find := (find_file direct nested).

  Lemma find_available m a : avail m a = match find m a with Some _ => true | None => false end.
  Proof. unfold available, find_file. destruct (direct m a); [reflexivity|]. destruct (nested m a); reflexivity. Qed.
  Lemma find_holds m a f s : find m a = Some f -> read f = Ok s -> holds direct nested read m a s.
  Proof. unfold find_file, holds. intros H R. exists f. split; [|exact R]. destruct (direct m a); [left; exact H|right; split; [reflexivity|exact H]]. Qed.
  Lemma attributes_ok m : forall l dfs p dfs' p', read_attributes direct nested read m dfs p l = Ok (dfs', p') ->
    exists new, dfs' = dfs ++ new /\ map fst new = filter (avail m) l /\ Forall (fun x => holds direct nested read m (fst x) (snd x)) new /\
      p' = match last_opt l with Some a => avail m a | None => p end.
  Proof.
    induction l as [|a l IH]; intros dfs p dfs' p' H; cbn [read_attributes] in H.
    - injection H as <- <-. exists []. rewrite app_nil_r. repeat split. constructor.
    - cbn [filter]. rewrite find_available. destruct (find m a) as [f|] eqn:FF.
      + destruct (read f) as [s|] eqn:R; [|discriminate H]. cbn [bind] in H. destruct (IH _ _ _ _ H) as (new & -> & E & FA & ->). exists ((a, s) :: new). rewrite <- app_assoc. cbn [app map fst]. rewrite E. repeat split; [constructor; [eapply find_holds; eassumption|exact FA]|].
        cbn [last_opt]. destruct l; [rewrite find_available, FF; reflexivity|]. destruct (last_opt (a0 :: l)) eqn:L; [reflexivity|]. exfalso. clear - L. revert a0 L. induction l as [|b l IH]; intros a0 L; [discriminate|]. exact (IH _ L).
      + destruct (IH _ _ _ _ H) as (new & -> & E & FA & ->). exists new. repeat split; [exact E|exact FA|]. cbn [last_opt]. destruct l; [rewrite find_available, FF; reflexivity|]. destruct (last_opt (a0 :: l)) eqn:L; [reflexivity|]. exfalso. clear - L. revert a0 L. induction l as [|b l IH]; intros a0 L; [discriminate|]. exact (IH _ L).
  Qed.
  Definition made (x : M * Table) : Prop :=
    exists dfs, join dfs = Ok (snd x) /\ map fst dfs = filter (avail (fst x)) attributes /\ Forall (fun y => holds direct nested read (fst x) (fst y) (snd y)) dfs.
  Lemma meters_ok : forall ms stored all, do_meters direct nested read join stored ms = (all, None) ->
    exists new, all = stored ++ new /\ map fst new = filter (fun m => avail m Current) ms /\ Forall made new.
  Proof.
    induction ms as [|m ms IH]; intros stored all H; cbn [do_meters] in H.
    - injection H as <-. exists []. rewrite app_nil_r. repeat split. constructor.
    - destruct (read_attributes direct nested read m [] false attributes) as [[dfs p]|] eqn:RA; [|discriminate H]. destruct (attributes_ok m _ _ _ _ _ RA) as (new & -> & E & FA & EP). change (last_opt attributes) with (Some Current) in EP. cbn [filter]. rewrite <- EP. destruct p.
      + destruct (join ([] ++ new)) as [t|] eqn:J; [|discriminate H]. destruct (IH _ _ H) as (more & -> & E2 & F2). exists ((m, t) :: more). rewrite <- app_assoc. cbn [app map fst]. rewrite E2. repeat split. constructor; [|exact F2]. exists new. repeat split; assumption.
      + apply IH, H.
  Qed.
  Lemma convert_ok ms stored : convert direct nested read join ms = (stored, None) ->
    map fst stored = filter (fun m => avail m Current) ms /\ Forall made stored /\ stored <> [].
  Proof.
    unfold convert. destruct (do_meters direct nested read join [] ms) as [all [e|]] eqn:D; [destruct all; discriminate|]. destruct (meters_ok _ _ _ D) as (new & -> & E & FA). cbn [app]. destruct new as [|x new]; [discriminate|]. intros H. injection H as <-. split; [exact E|]. split; [exact FA|discriminate].
  Qed.
  Lemma complete ms stored : Forall (all_or_none direct nested) ms -> convert direct nested read join ms = (stored, None) ->
    map fst stored = filter (fun m => existsb (avail m) attributes) ms /\
    forall m t, In (m, t) stored -> exists p e c, join [(Power, p); (Energy, e); (Current, c)] = Ok t /\ holds direct nested read m Power p /\ holds direct nested read m Energy e /\ holds direct nested read m Current c.
  Proof.
    intros AN H. destruct (convert_ok ms stored H) as (E & FA & _). split.
    - rewrite E. apply filter_ext_in. intros m I. rewrite Forall_forall in AN. specialize (AN m I). cbn [existsb attributes]. rewrite (AN Power Current), (AN Energy Current). destruct (avail m Current); reflexivity.
    - intros m t I. rewrite Forall_forall in FA, AN. destruct (FA _ I) as (dfs & J & EM & F2). cbn [fst snd] in *. assert (IM : In m (filter (fun m => avail m Current) ms)) by (rewrite <- E; apply (in_map fst _ _ I)). apply filter_In in IM as [IM C]. specialize (AN m IM).
      cbn [filter attributes] in EM. rewrite (AN Power Current), (AN Energy Current), C in EM. destruct dfs as [|[a1 p] [|[a2 e] [|[a3 c] [|]]]]; try discriminate. cbn in EM. injection EM as -> -> ->. inversion F2 as [|? ? P1 F3]; subst. inversion F3 as [|? ? P2 F4]; subst. inversion F4 as [|? ? P3 F5]; subst. exists p, e, c. repeat split; assumption.
  Qed.
  Lemma attributes_errors m e : forall l dfs p, read_attributes direct nested read m dfs p l = Err e -> exists a f, find m a = Some f /\ read f = Err e.
  Proof.
    induction l as [|a l IH]; intros dfs p H; cbn [read_attributes] in H; [discriminate|]. destruct (find m a) as [f|] eqn:FF; [|eapply IH; exact H]. destruct (read f) as [s|x] eqn:R; [eapply IH; exact H|]. cbn [bind] in H. injection H as ->. exists a, f. split; assumption.
  Qed.
  Lemma refused_attributes m : (forall f, read f = Err TypeError) -> forall l dfs p, (exists a, In a l /\ avail m a = true) -> read_attributes direct nested read m dfs p l = Err TypeError.
  Proof.
    intros R. induction l as [|a l IH]; intros dfs p (b & I & AV); [destruct I|]. cbn [read_attributes]. destruct (find m a) as [f|] eqn:FF; [rewrite R; reflexivity|]. apply IH. exists b. split; [|exact AV]. destruct I as [->|I]; [|exact I]. rewrite find_available, FF in AV. discriminate.
  Qed.
  Lemma refused_none m : forall l dfs p, (forall a, In a l -> avail m a = false) -> l <> [] -> read_attributes direct nested read m dfs p l = Ok (dfs, false).
  Proof.
    induction l as [|a l IH]; intros dfs p N NE; [congruence|]. cbn [read_attributes]. specialize (N a (or_introl eq_refl)) as NA. rewrite find_available in NA. destruct (find m a); [discriminate|]. destruct l; [reflexivity|]. apply IH; [|discriminate]. intros b I. apply N. right. exact I.
  Qed.
  Lemma refused ms : (forall f, read f = Err TypeError) -> (exists m a, In m ms /\ avail m a = true) -> convert direct nested read join ms = ([], Some TypeError).
  Proof.
    intros R H. unfold convert. assert (D : do_meters direct nested read join [] ms = ([], Some TypeError)); [|rewrite D; reflexivity]. induction ms as [|m ms IH]; [destruct H as (? & ? & [] & _)|]. cbn [do_meters].
    destruct (existsb (avail m) attributes) eqn:X.
    - apply existsb_exists in X. rewrite (refused_attributes m R) by exact X. reflexivity.
    - assert (N : forall a, avail m a = false). { intros a. destruct (avail m a) eqn:A; [|reflexivity]. assert (existsb (avail m) attributes = true) by (apply existsb_exists; exists a; split; [destruct a; cbn; tauto|exact A]). congruence. }
      rewrite refused_none by (try discriminate; intros; apply N). apply IH. destruct H as (m' & a & [->|I] & A); [rewrite N in A; discriminate|]. exists m', a. split; assumption.
  Qed.
  Lemma nothing ms : (forall m a, In m ms -> avail m a = false) -> convert direct nested read join ms = ([], Some RuntimeError).
  Proof.
    intros N. unfold convert. assert (D : do_meters direct nested read join [] ms = ([], None)); [|rewrite D; reflexivity]. induction ms as [|m ms IH]; [reflexivity|]. cbn [do_meters]. rewrite refused_none by (try discriminate; intros; apply N; left; reflexivity). apply IH. intros m' a I. apply N. right. exact I.
  Qed.
End Proofs.
