(** Proofs about grouping meters by their appliances. *)
From Coq Require Import Lia.
From Verif Require Import Base MatchModel MatchSpec MatchProofs ByModel BySpec.
Open Scope nat_scope.

Lemma dominant_spec dominant m a : dominant_appliance dominant m = Some a <-> is_dominant dominant m a.
Proof.
  assert (FS : forall l a, find dominant l = Some a <-> exists p r, l = p ++ a :: r /\ dominant a = true /\ Forall (fun b => dominant b = false) p).
  { induction l as [|x l IH]; intros b; cbn.
    - split; [discriminate|]. intros ([|? ?] & r & E & _); discriminate.
    - destruct (dominant x) eqn:D.
      + split.
        * intros E. injection E as <-. exists [], l. auto.
        * intros (p & r & E & Db & F). destruct p as [|y p]; [injection E as -> _; reflexivity|]. injection E as <- _. apply Forall_cons_iff in F. destruct F. congruence.
      + rewrite IH. split.
        * intros (p & r & -> & Db & F). exists (x :: p), r. auto.
        * intros (p & r & E & Db & F). destruct p as [|y p]; [injection E as -> _; congruence|]. injection E as <- ->. apply Forall_cons_iff in F. exists p, r. tauto. }
  assert (FN : forall l, find dominant l = None <-> Forall (fun b => dominant b = false) l).
  { induction l as [|x l IH]; cbn; [split; auto|]. rewrite Forall_cons_iff, <- IH. destruct (dominant x); [split; [discriminate|intros [E _]; discriminate]|tauto]. }
  unfold dominant_appliance. destruct (m_appliances m) as [|x [|y l]] eqn:E.
  - split; [discriminate|]. intros [H|p r _ H _ _|r _ H]; rewrite E in H; [discriminate|destruct p; discriminate|discriminate].
  - split.
    + intros H. injection H as <-. apply dom_only, E.
    + intros [H|p r L H _ _|r _ H]; rewrite E in *; [injection H as ->; reflexivity|cbn in L; lia|injection H as -> _; reflexivity].
  - destruct (find dominant (x :: y :: l)) as [b|] eqn:F.
    + split.
      * intros H. injection H as ->. apply FS in F. destruct F as (p & r & Ep & D & Fp). apply (dom_marked _ _ _ p r); auto; rewrite E; [cbn; lia|exact Ep].
      * intros [H|p r L H D Fp|r Fp H]; rewrite E in *; [discriminate| |].
        -- assert (X : find dominant (x :: y :: l) = Some a) by (apply FS; exists p, r; auto). congruence.
        -- apply FN in Fp. congruence.
    + split.
      * intros H. injection H as ->. apply (dom_first _ _ _ (y :: l)); rewrite E; [apply FN, F|reflexivity].
      * intros [H|p r L H D Fp|r Fp H]; rewrite E in *; [discriminate| |injection H as -> _; reflexivity].
        assert (X : find dominant (x :: y :: l) = Some a) by (apply FS; exists p, r; auto). congruence.
Qed.
Lemma dominant_none dominant m : dominant_appliance dominant m = None <-> m_appliances m = [].
Proof.
  unfold dominant_appliance. destruct (m_appliances m) as [|x [|y l]]; [split; auto|split; discriminate|]. destruct (find _ _); split; discriminate.
Qed.

Lemma extend_in x v : In v (extend x) <-> exists w, x = Some w /\ value_covers w (Atom v).
Proof.
  unfold value_covers. destruct x as [[n|l]|]; cbn.
  - split; [intros [->|[]]; exists (Atom v); auto|]. intros (w & E & [H|(l & n' & H & _)]); injection E as <-; [injection H as ->; auto|discriminate].
  - split; [intros I; exists (ListV l); split; [reflexivity|right; exists l, v; auto]|]. intros (w & E & [H|(l' & n' & H & H' & I)]); injection E as <-; [discriminate|].
    injection H as ->. injection H' as ->. exact I.
  - split; [intros []|]. intros (w & E & _). discriminate.
Qed.
Lemma values_gives types k a l v : appliance_values types k (Some a) = Ok l -> (In v l <-> gives types a k v).
Proof.
  unfold appliance_values, type_of, gives. destruct (get TypeN (a_metadata a)) as [t|] eqn:T; [|discriminate]. destruct (types t) as [x|] eqn:X; [|discriminate].
  cbn [bind]. intros E. injection E as <-. rewrite in_app_iff, !extend_in. split.
  - intros [(w & E & C)|(w & E & C)]; exists t, x, w; auto.
  - intros (t' & x' & w & Et & Ex & H & C). injection Et as <-. rewrite X in Ex. injection Ex as <-. destruct H as [H|H]; [left|right]; exists w; auto.
Qed.

Lemma mapM_inv {A B} (f : A -> res B) : forall l r, mapM f l = Ok r -> Forall2 (fun x y => f x = Ok y) l r.
Proof.
  induction l as [|x l IH]; intros r E; cbn in E; [injection E as <-; constructor|].
  destruct (f x) as [y|] eqn:F; [|discriminate]. cbn in E. destruct (mapM f l) as [r'|] eqn:M; [|discriminate]. cbn in E. injection E as <-. constructor; auto.
Qed.

Lemma groupby_thm : forall types syn setlist dominant k g gs, lists_sets setlist ->
  groupby types syn setlist dominant k g = Ok gs ->
  NoDup (map fst gs) /\
  (forall v, In v (map fst gs) <-> exists m a, In m g /\ is_dominant dominant m a /\ gives types a k v) /\
  (forall v l, In (v, l) gs -> l <> [] /\ exists sel : meter -> bool,
     (forall m, sel m = true <-> matches_appliances types syn m (QDict [(k, Atom v)]) = Ok true) /\ l = filter sel g).
Proof.
  intros types syn setlist dominant k g gs S E. unfold groupby in E. destruct (values_for_key types setlist dominant k g) as [vs|] eqn:V; [|discriminate].
  cbn [bind] in E. apply mapM_inv in E.
  assert (K : map fst gs = vs).
  { clear - E. induction E as [|v y vs gs H E IH]; [reflexivity|]. cbn [map]. rewrite IH. f_equal.
    destruct (select _ g [(k, Atom v)]); [|discriminate]. cbn in H. injection H as <-. reflexivity. }
  unfold values_for_key in V. destruct (mapM _ g) as [ls|] eqn:M; [|discriminate]. cbn [bind] in V. injection V as V.
  rewrite K, <- V. destruct (S (concat ls)) as [S1 S2]. split; [exact S1|]. split.
  - intros v. rewrite S2, in_concat. apply mapM_inv in M. split.
    + intros (l & Il & Iv). clear - M Il Iv. induction M as [|m l' g ls H M IH]; [destruct Il|]. destruct Il as [->|Il].
      * destruct (dominant_appliance dominant m) as [a|] eqn:D; [|discriminate]. exists m, a. split; [left; reflexivity|]. split; [apply dominant_spec, D|].
        apply (values_gives _ _ _ _ _ H), Iv.
      * destruct (IH Il) as (m' & a & I & R). exists m', a. split; [right; exact I|exact R].
    + intros (m & a & I & D & G). clear - M I D G. apply dominant_spec in D. induction M as [|m' l' g ls H M IH]; [destruct I|]. destruct I as [->|I].
      * exists l'. split; [left; reflexivity|]. rewrite D in H. apply (values_gives _ _ _ _ _ H), G.
      * destruct (IH I) as (l & Il & Iv). exists l. split; [right; exact Il|exact Iv].
  - intros v l I. assert (X : exists v', (do l <- select (matches_appliances types syn) g [(k, Atom v')]; Ok (v', l)) = Ok (v, l)).
    { clear - E I. induction E as [|v' y vs gs H E IH]; [destruct I|]. destruct I as [->|I]; [exists v'; exact H|exact (IH I)]. }
    destruct X as (v' & X). destruct (select _ g [(k, Atom v')]) as [l'|] eqn:SEL; [|discriminate]. cbn in X. injection X as -> ->.
    cbn [select] in SEL. unfold select_one in SEL. destruct (select_get _ g) as [r|] eqn:G; [|discriminate]. cbn [bind] in SEL.
    destruct r as [|m r]; [discriminate|]. injection SEL as <-. split; [discriminate|].
    exists (fun x => match matches_appliances types syn x (QDict [(k, Atom v)]) with Ok b => b | Err _ => false end). split.
    + intros x. destruct (matches_appliances types syn x (QDict [(k, Atom v)])) as [[|]|]; split; intros Q; solve [reflexivity|discriminate Q].
    + apply select_get_thm in G. exact G.
Qed.

(** What a match means for the meters of a group: some appliance has the value. *)
Lemma matches_means types syn m k v : matches_appliances types syn m (QDict [(k, v)]) = Ok true -> exists a, In a (m_appliances m) /\ app_has types syn a k v.
Proof.
  unfold matches_appliances. induction (m_appliances m) as [|a l IH]; cbn [first_match]; [discriminate|]. destruct (app_matches types syn a (QDict [(k, v)])) as [[|]|] eqn:E; cbn [bind]; [| |discriminate].
  - intros _. exists a. split; [left; reflexivity|]. apply app_key_true, E.
  - intros H. destruct (IH H) as (b & I & B). exists b. split; [right; exact I|exact B].
Qed.

Lemma group_members : forall types syn setlist dominant k g gs v l m, lists_sets setlist ->
  groupby types syn setlist dominant k g = Ok gs -> In (v, l) gs -> In m l ->
  In m g /\ exists a, In a (m_appliances m) /\ app_has types syn a k (Atom v).
Proof.
  intros types syn setlist dominant k g gs v l m S E I Im. destruct (groupby_thm _ _ _ _ _ _ _ S E) as (_ & _ & H).
  destruct (H v l I) as (_ & sel & Hs & ->). apply filter_In in Im. destruct Im as [Im Is]. split; [exact Im|]. apply matches_means, Hs, Is.
Qed.

(** The meters whose only appliance has the value are in the group. *)
Lemma group_complete : forall types syn setlist dominant k g gs v m a w t x, lists_sets setlist ->
  groupby types syn setlist dominant k g = Ok gs -> In m g -> m_appliances m = [a] ->
  k <> TypeN -> k <> InstanceN -> k <> CategoryN -> (forall n, k <> Method n) ->
  get TypeN (a_metadata a) = Some t -> types t = Some x ->
  (get k (a_metadata a) = Some (Atom v) \/ (get k (a_metadata a) = None /\ get k (t_attrs x) = Some w /\ value_covers w (Atom v))) ->
  exists l, In (v, l) gs /\ In m l.
Proof.
  intros types syn setlist dominant k g gs v m a w t x S E I A N1 N2 N3 N4 T X H. destruct (groupby_thm _ _ _ _ _ _ _ S E) as (_ & Hv & Hl).
  assert (V : In v (map fst gs)).
  { apply Hv. exists m, a. split; [exact I|]. split; [apply dom_only, A|]. exists t, x. destruct H as [H|(H1 & H2 & H3)].
    - exists (Atom v). split; [exact T|]. split; [exact X|]. split; [auto|left; reflexivity].
    - exists w. auto. }
  apply in_map_iff in V. destruct V as ([v' l] & Ev & Il). cbn in Ev. subst v'. exists l. split; [exact Il|].
  destruct (Hl v l Il) as (_ & sel & Hs & ->). apply filter_In. split; [exact I|]. apply Hs.
  unfold matches_appliances. rewrite A. cbn [first_match].
  assert (M : app_matches types syn a (QDict [(k, Atom v)]) = Ok true).
  { unfold app_matches, run_query. cbn [loop]. assert (KK : app_key types syn a k (Atom v) = Ok true).
    { unfold app_key. destruct H as [H|(H1 & H2 & H3)].
      - destruct k; try contradiction; try (destruct (N4 n eq_refl)); rewrite H; cbn; f_equal; apply veq_spec; reflexivity.
      - assert (TT : type_of types a = Ok x) by (unfold type_of; rewrite T, X; reflexivity). assert (TV := proj2 (type_value_spec w (Atom v)) H3).
        destruct k; try contradiction; try (destruct (N4 n eq_refl)); rewrite H1; (destruct (name_dec _ _) as [Q|_]; [discriminate Q|]); rewrite TT; cbn [bind]; rewrite H2, TV; reflexivity. }
    rewrite KK. reflexivity. }
  rewrite M. reflexivity.
Qed.

(** The dominant appliance of a group. *)
Section group_dominant.
  Variable app_eqb : appliance -> appliance -> bool.
  Hypothesis eqb_spec : forall a b, app_eqb a b = true <-> a = b.
  Lemma opt_eqb_spec x y : opt_eqb app_eqb x y = true <-> x = y.
  Proof. destruct x, y; cbn; split; try discriminate; try reflexivity; [intros H; apply eqb_spec in H; congruence|intros H; injection H as ->; apply eqb_spec; reflexivity]. Qed.
  Lemma fold_distinct_in : forall l acc x, In x (fold_left (add_distinct app_eqb) l acc) <-> In x l \/ In x acc.
  Proof.
    induction l as [|y l IH]; intros acc x; [cbn; tauto|]. cbn [fold_left]. rewrite IH. unfold add_distinct. destruct (existsb (opt_eqb app_eqb y) acc) eqn:E.
    - apply existsb_exists in E. destruct E as (z & I & Z). apply opt_eqb_spec in Z. subst z. cbn. split; [tauto|]. intros [[->|H]|H]; auto.
    - rewrite in_app_iff. cbn. tauto.
  Qed.
  Lemma fold_distinct_nodup : forall l acc, NoDup acc -> NoDup (fold_left (add_distinct app_eqb) l acc).
  Proof.
    induction l as [|y l IH]; intros acc N; [exact N|]. cbn [fold_left]. apply IH. unfold add_distinct. destruct (existsb (opt_eqb app_eqb y) acc) eqn:E; [exact N|].
    assert (NI : ~ In y acc).
    { intros I. assert (existsb (opt_eqb app_eqb y) acc = true) by (apply existsb_exists; exists y; split; [exact I|apply opt_eqb_spec; reflexivity]). congruence. }
    clear - N NI. induction acc as [|z acc IH]; [repeat constructor; auto|]. inversion N; subst. cbn. constructor; [|apply IH; [assumption|intros I; apply NI; right; exact I]].
    intros I. apply in_app_or in I. destruct I as [I|[->|[]]]; [contradiction|]. apply NI. left. reflexivity.
  Qed.
  Lemma group_dominant_thm dominant g :
    (forall x, g <> [] -> (forall m, In m g -> dominant_appliance dominant m = x) -> group_dominant app_eqb dominant g = Ok x) /\
    (forall m m', In m g -> In m' g -> dominant_appliance dominant m <> dominant_appliance dominant m' -> group_dominant app_eqb dominant g = Err RuntimeError).
  Proof.
    unfold group_dominant. set (L := fold_left (add_distinct app_eqb) (map (dominant_appliance dominant) g) []).
    assert (LI : forall x, In x L <-> exists m, In m g /\ dominant_appliance dominant m = x).
    { intros x. unfold L. rewrite fold_distinct_in, in_map_iff. split; [intros [(m & E & I)|[]]; exists m; auto|intros (m & I & E); left; exists m; auto]. }
    assert (LN : NoDup L) by (apply fold_distinct_nodup; constructor). split.
    - intros x NE H. destruct L as [|y [|z r]] eqn:EL.
      + destruct g as [|m g]; [contradiction|]. assert (X : In (dominant_appliance dominant m) []) by (apply LI; exists m; split; [left; reflexivity|reflexivity]). destruct X.
      + f_equal. destruct (proj1 (LI y) (or_introl eq_refl)) as (m & I & E). rewrite <- E. exact (H m I).
      + destruct (proj1 (LI y) (or_introl eq_refl)) as (m & I & E). destruct (proj1 (LI z) (or_intror (or_introl eq_refl))) as (m' & I' & E').
        rewrite (H m I) in E. rewrite (H m' I') in E'. subst. inversion LN as [|? ? N1 _]; subst. destruct N1. left. reflexivity.
    - intros m m' I I' D. destruct L as [|y [|z r]]; [| |reflexivity].
      + destruct (proj2 (LI _) (ex_intro _ m (conj I eq_refl))).
      + destruct (proj2 (LI _) (ex_intro _ m (conj I eq_refl))) as [A|[]]. destruct (proj2 (LI _) (ex_intro _ m' (conj I' eq_refl))) as [B|[]]. congruence.
  Qed.
End group_dominant.
