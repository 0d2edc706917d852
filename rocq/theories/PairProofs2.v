From Verif Require Import Base ItemModel ItemSpec ItemProofs ItemProofs2 PairModel PairSpec PairProofs.
Import List. Open Scope list_scope. Open Scope Z_scope.

Section Pairs.
Context {app V : Type}.
Variable matches : app -> list (nat * obj) -> res bool.
Variable order : list app -> list app.
Variable several : list (node app) -> list obj.
Variable score : node app * found app -> res V.
Notation node := (node app).
Notation pairs := (pairs matches order several).
Notation metric := (metric matches order several score).

Lemma pairs_fst d slave subs : forall l, Forall2 (fun (m : node) p => exists x, p = (m, One x) /\ First (counterpart d m) slave x) subs l -> map fst l = subs.
Proof. induction 1 as [|m p subs l (x & -> & _) _ IH]; cbn; congruence. Qed.

Lemma metric_distinct d predictions truth subs r : within_dataset d (Grp truth) -> Filtered is_submeter predictions subs ->
  Forall (fun m => ordinary (ident m)) subs ->
  ForallOrdPairs (fun m m' => ~ Same (instance m) (instance m')) subs ->
  metric predictions truth = Ok r ->
  exists vs, r = combine (map instance subs) vs /\
    Forall2 (fun m v => exists x, First (counterpart d m) truth x /\ score (m, One x) = Ok v) subs vs.
Proof.
  intros W F O D H. unfold PairModel.metric in H. destruct (pairs predictions truth) as [ps|e] eqn:E; [|discriminate]. cbn [bind] in H.
  pose proof (proj1 (pairs_ok matches order several d _ _ _ W F O ps) E) as P.
  pose proof (pairs_fst _ _ _ _ P) as Ef.
  assert (D' : ForallOrdPairs (fun p q : node * found app => ~ Same (instance (fst p)) (instance (fst q))) ps).
  { rewrite <- Ef in D. clear - D. induction ps as [|p ps IH]; [constructor|]. cbn in D. inversion D as [|? ? D1 D2]; subst.
    constructor; [|apply IH; exact D2]. rewrite Forall_forall in D1 |- *. intros q I. apply D1. apply in_map. exact I. }
  destruct (scores_distinct score ps [] r H D') as (vs & -> & S); [intros p _ (y & [] & _)|].
  exists vs. split; [cbn; rewrite <- Ef, map_map; reflexivity|].
  clear - P S. revert vs S. induction P as [|m p subs ps (x & -> & Fx) _ IH]; intros vs S; inversion S; subst; constructor; auto.
  exists x. split; assumption.
Qed.

Lemma metric_last d predictions truth subs r : within_dataset d (Grp truth) -> Filtered is_submeter predictions subs ->
  Forall (fun m => ordinary (ident m)) subs -> metric predictions truth = Ok r -> forall k,
  (Member k (map fst r) <-> exists m, In m subs /\ Same k (instance m)) /\
  (forall m, Last (fun m => Same k (instance m)) subs m ->
     exists x v, First (counterpart d m) truth x /\ score (m, One x) = Ok v /\ get k r = Some v).
Proof.
  intros W F O H k. unfold PairModel.metric in H. destruct (pairs predictions truth) as [ps|e] eqn:E; [|discriminate]. cbn [bind] in H.
  pose proof (proj1 (pairs_ok matches order several d _ _ _ W F O ps) E) as P.
  pose proof (pairs_fst _ _ _ _ P) as Ef. split.
  - rewrite (scores_keys score ps [] r H k). split.
    + intros [(y & [] & _)|(p & I & S)]. exists (fst p). split; [rewrite <- Ef; apply in_map; exact I|exact S].
    + intros (m & I & S). right. rewrite <- Ef in I. apply in_map_iff in I as (p & <- & I). eauto.
  - intros m (m1 & m2 & Em & Sm & Nm).
    assert (U : forall (l1 l2 l3 l4 : list node) a b, l1 ++ a :: l2 = l3 ++ b :: l4 -> Same k (instance a) -> Same k (instance b) ->
      (forall y, In y l2 -> ~ Same k (instance y)) -> (forall y, In y l4 -> ~ Same k (instance y)) -> a = b).
    { clear. induction l1 as [|z l1 IH]; intros l2 [|z' l3] l4 a b Eq Sa Sb N2 N4; cbn in Eq; injection Eq as E1 E2; subst.
      - reflexivity.
      - exfalso. apply (N2 b); [apply in_or_app; right; left; reflexivity|exact Sb].
      - exfalso. apply (N4 a); [apply in_or_app; right; left; reflexivity|exact Sa].
      - eapply IH; eauto. }
    destruct (scores_get score ps [] r H k) as [(p & v & (l1 & l2 & E2 & S & N) & Es & G)|(N & _)].
    + assert (Emp : m = fst p).
      { eapply (U m1 m2 (map fst l1) (map fst l2)); eauto.
        - rewrite <- Em, <- Ef, E2, map_app. reflexivity.
        - intros y I. apply in_map_iff in I as (q & <- & I). apply N. exact I. }
      assert (Ip : In p ps) by (rewrite E2; apply in_or_app; right; left; reflexivity).
      assert (X : exists x, p = (fst p, One x) /\ First (counterpart d (fst p)) truth x).
      { clear - P Ip. induction P as [|m p' subs ps (x & -> & Fx) _ IH]; [destruct Ip|]. destruct Ip as [<-|I]; [exists x; auto|auto]. }
      destruct X as (x & Ex & Fx). exists x, v. rewrite Emp. split; [exact Fx|]. split; [rewrite <- Ex; exact Es|exact G].
    + exfalso. assert (I : In m (map fst ps)) by (rewrite Ef, Em; apply in_or_app; right; left; reflexivity).
      apply in_map_iff in I as (p & <- & I). apply (N p I). exact Sm.
Qed.

Lemma metric_total d predictions truth subs : within_dataset d (Grp truth) -> Filtered is_submeter predictions subs ->
  Forall (fun m => ordinary (ident m)) subs ->
  ((forall m, In m subs -> exists x, In x truth /\ counterpart d m x) ->
     (forall m x, In m subs -> In x truth -> counterpart d m x -> exists v, score (m, One x) = Ok v) -> exists r, metric predictions truth = Ok r) /\
  ((exists m, In m subs /\ forall x, In x truth -> ~ counterpart d m x) -> metric predictions truth = Err KeyError) /\
  (forall e, metric predictions truth = Err e -> e = KeyError \/ exists m x, In m subs /\ In x truth /\ counterpart d m x /\ score (m, One x) = Err e).
Proof.
  intros W F O. destruct (pairs_err matches order several d _ _ _ W F O) as (E1 & E2).
  assert (X : forall ps, pairs predictions truth = Ok ps -> forall p, In p ps -> exists m x, p = (m, One x) /\ In m subs /\ In x truth /\ counterpart d m x).
  { intros ps E p I. apply (pairs_ok matches order several d _ _ _ W F O) in E.
    clear - E I. induction E as [|m p' subs ps (x & -> & Fx) _ IH]; [destruct I|]. destruct I as [<-|I].
    - apply First_in in Fx. exists m, x. repeat split; try apply Fx. left. reflexivity.
    - destruct (IH I) as (m' & x' & ? & ? & ? & ?). exists m', x'. repeat split; auto. right. assumption. }
  unfold PairModel.metric. destruct (pairs predictions truth) as [ps|e] eqn:E; cbn [bind].
  - split; [|split].
    + intros _ T. apply (scores_total score). intros p I. destruct (X ps eq_refl p I) as (m & x & -> & ? & ? & ?). eauto.
    + intros N. apply E1 in N. discriminate.
    + intros e H. right. apply (scores_err score) in H as (p & I & S). destruct (X ps eq_refl p I) as (m & x & -> & ? & ? & ?). exists m, x. auto.
  - rewrite (E2 e eq_refl). split; [|split; [reflexivity|intros e' [= <-]; auto]].
    intros T _. exfalso. destruct (proj1 E1) as (m & I & N); [rewrite (E2 e eq_refl); reflexivity|]. destruct (T m I) as (x & Ix & C). exact (N x Ix C).
Qed.

(** A group whose meters belong to several data sets. *)
Lemma several_fails master slave i b d a : In (Meter (Int i) b d false a) master -> i <> 0 ->
  dataset (Grp slave) = Many -> (forall i' b' d' s a', In (Meter i' b' d' s a') slave -> ~ Same d' (Tup (several slave))) ->
  exists e, pairs master slave = Err e.
Proof.
  intros I Ni M N. unfold PairModel.pairs.
  assert (J : In (Meter (Int i) b d false a) (submeters master)) by (apply filter_In; split; [exact I|reflexivity]).
  revert J. generalize (submeters master) as l. induction l as [|m l IH]; intros J; [destruct J|]. cbn [mapM].
  destruct J as [->|J].
  - unfold pair_up at 1. cbn [ident with_dataset bind]. unfold dataset_of. rewrite M.
    destruct (by_id matches order slave (Int i) b (Tup (several slave))) as (_ & H & _); [discriminate|unfold Same; cbn; congruence|].
    rewrite (proj2 H); [cbn; eauto|]. intros x Ix S. apply same_id_meter in S as (i' & b' & d' & s & a' & -> & _ & _ & S).
    exact (N _ _ _ _ _ Ix S).
  - destruct (pair_up matches order several slave m); cbn [bind]; [|eauto]. destruct (IH J) as (e & ->). cbn. eauto.
Qed.
End Pairs.
