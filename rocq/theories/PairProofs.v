From Verif Require Import Base ItemModel ItemSpec ItemProofs ItemProofs2 PairModel PairSpec.
Import List. Open Scope list_scope. Open Scope Z_scope.

Definition all_with (d : obj) : list obj -> res (list obj) :=
  fix all (l : list obj) : res (list obj) :=
    match l with
    | [] => Ok []
    | y :: l' => do z <- with_dataset d y; do r <- all l'; Ok (z :: r)
    end.
Lemma with_group d l : with_dataset d (GroupID l) = do l' <- all_with d l; Ok (GroupID l').
Proof. reflexivity. Qed.

Section Pairs.
Context {app : Type}.
Variable matches : app -> list (nat * obj) -> res bool.
Variable order : list app -> list app.
Variable several : list (node app) -> list obj.
Notation node := (node app).
Notation pairs := (pairs matches order several).
Notation pair_up := (pair_up matches order several).
Notation dataset_of := (dataset_of several).

Lemma with_ident d (x : node) : with_dataset d (ident x) = Ok (moved d (ident x)).
Proof.
  induction x as [i b d' s a|ms IH] using node_ind2; [reflexivity|]. cbn [ident]. rewrite with_group. cbn [moved].
  assert (E : all_with d (map ident ms) = Ok (map (moved d) (map ident ms))); [|rewrite E; reflexivity].
  induction IH as [|y ms H _ IH2]; [reflexivity|]. cbn [map all_with]. rewrite H. cbn [bind]. fold (all_with d). rewrite IH2. reflexivity.
Qed.

Lemma dataset_of_one d (ms : list node) : within_dataset d (Grp ms) -> exists d', dataset_of ms = d' /\ Same d d'.
Proof.
  intros H. apply within_dataset_iff in H. unfold PairModel.dataset_of. destruct (dataset (Grp ms)) as [|y|]; try discriminate.
  exists y. split; [reflexivity|]. apply py_eq_iff. exact H.
Qed.

Lemma norm_moved d d' (x : node) : Same d d' -> norm (moved d (ident x)) = norm (moved d' (ident x)).
Proof.
  intros H. induction x as [i b dd s a|ms IH] using node_ind2; cbn.
  - unfold Same in H. congruence.
  - do 3 f_equal. rewrite !map_map. induction IH; cbn; congruence.
Qed.

Lemma SameSet_norm l l' : map norm l = map norm l' -> SameSet l l'.
Proof.
  assert (G : forall l l', map norm l = map norm l' -> forall x, Member x l -> Member x l').
  { clear. intros l l' E x (y & I & S). assert (J : In (norm y) (map norm l')) by (rewrite <- E; apply in_map; exact I).
    apply in_map_iff in J as (z & Ez & Iz). exists z. split; [exact Iz|]. unfold Same in *. congruence. }
  intros E x. split; apply G; auto.
Qed.

Lemma SameSet_trans l1 l2 l3 : SameSet l1 l2 -> SameSet l2 l3 -> SameSet l1 l3.
Proof. intros H1 H2 x. rewrite (H1 x). apply H2. Qed.

Lemma counterpart_same d d' (m x : node) : Same d d' -> counterpart d m x <-> counterpart d' m x.
Proof.
  assert (G : forall d d', Same d d' -> counterpart d m x -> counterpart d' m x).
  { clear. intros d d' S. destruct m as [i b dd s a|ms]; cbn [counterpart].
    - unfold Same in *. cbn. intros ->. congruence.
    - intros (l & -> & H). exists l. split; [reflexivity|]. eapply SameSet_trans; [exact H|]. apply SameSet_norm.
      rewrite !map_map. apply map_ext. intros y. apply norm_moved. exact S. }
  intros S. split; apply G; [exact S|apply Same_sym; exact S].
Qed.

(** One lookup. *)
Lemma lookup d slave (m : node) : within_dataset d (Grp slave) -> ordinary (ident m) ->
  (forall p, pair_up slave m = Ok p <-> exists x, p = (m, One x) /\ First (counterpart d m) slave x) /\
  (pair_up slave m = Err KeyError <-> forall x, In x slave -> ~ counterpart d m x) /\
  (forall e, pair_up slave m = Err e -> e = KeyError).
Proof.
  intros W O. destruct (dataset_of_one d slave W) as (d' & Ed & S).
  unfold PairModel.pair_up. rewrite with_ident. cbn [bind]. rewrite Ed. clear Ed.
  assert (K : (forall r, getitem matches order slave (moved d' (ident m)) = Ok r <-> exists x, r = One x /\ First (counterpart d m) slave x) /\
    (getitem matches order slave (moved d' (ident m)) = Err KeyError <-> forall x, In x slave -> ~ counterpart d m x) /\
    (forall e, getitem matches order slave (moved d' (ident m)) = Err e -> e = KeyError)).
  { assert (FE : forall P Q : node -> Prop, (forall x, P x <-> Q x) -> forall x, First P slave x <-> First Q slave x).
    { clear. intros P Q E x. split; intros (l1 & l2 & H1 & H2 & H3); exists l1, l2; (split; [exact H1|]); (split; [apply E; exact H2|]);
        intros y I K; apply (H3 y I); apply E; exact K. }
    destruct m as [i b dd s a|ms].
    - inversion O as [n b0 d0 N E|]; subst. cbn [ident moved].
      destruct (by_id matches order slave (Int n) b d') as (H1 & H2 & H3); [discriminate|unfold Same; cbn; congruence|].
      assert (C : forall x : node, Same (ident x) (MeterID (Int n) b d') <-> counterpart d (Meter (Int n) b dd s a) x).
      { intros x. rewrite (counterpart_same d d' _ _ S). reflexivity. }
      split; [|split; [|exact H3]].
      + intros r. rewrite H1. split; intros (x & E & F); exists x; (split; [exact E|]); apply (FE _ _ C); exact F.
      + rewrite H2. split; intros H x I K; apply (H x I); apply C; exact K.
    - cbn [ident moved]. rewrite map_map. destruct (by_ids matches order slave (map (fun y => moved d' (ident y)) ms)) as (H1 & H2 & H3).
      assert (C : forall x : node, group_of_ids (map (fun y => moved d' (ident y)) ms) x <-> counterpart d (Grp ms) x).
      { intros x. rewrite (counterpart_same d d' _ _ S). reflexivity. }
      split; [|split; [|exact H3]].
      + intros r. rewrite H1. split; intros (x & E & F); exists x; (split; [exact E|]); apply (FE _ _ C); exact F.
      + rewrite H2. split; intros H x I K; apply (H x I); apply C; exact K. }
  destruct K as (K1 & K2 & K3). destruct (getitem matches order slave (moved d' (ident m))) as [y|e] eqn:E; cbn [bind].
  - split; [|split; [|discriminate]].
    + intros p. split.
      * intros [= <-]. destruct (proj1 (K1 y) eq_refl) as (x & -> & F). eauto.
      * intros (x & -> & F). assert (Y : Ok y = Ok (One x)) by (apply K1; eauto). congruence.
    + split; [discriminate|]. intros N. apply K2 in N. discriminate.
  - rewrite (K3 e eq_refl) in *. split; [|split; [|congruence]].
    + intros p. split; [discriminate|]. intros (x & _ & F). assert (Y : Err KeyError = Ok (One x)) by (apply K1; eauto). discriminate.
    + rewrite <- K2. split; reflexivity.
Qed.

Lemma submeters_filtered (ms : list node) : Filtered is_submeter ms (submeters ms).
Proof.
  unfold submeters. induction ms as [|x ms IH]; cbn [filter]; [constructor|].
  destruct (is_site x) eqn:E; cbn [negb].
  - apply Filtered_drop; [|exact IH]. intros N. apply N. apply is_site_iff. exact E.
  - apply Filtered_keep; [|exact IH]. intros H. apply is_site_iff in H. congruence.
Qed.

Lemma filtered_unique {A} (P : A -> Prop) l l1 l2 : Filtered P l l1 -> Filtered P l l2 -> l1 = l2.
Proof. intros H. revert l2. induction H; intros l2 K; inversion K; subst; try congruence; try contradiction; f_equal; auto. Qed.

Lemma pairs_ok d master slave subs : within_dataset d (Grp slave) -> Filtered is_submeter master subs ->
  Forall (fun m => ordinary (ident m)) subs ->
  forall l, pairs master slave = Ok l <->
    Forall2 (fun m p => exists x, p = (m, One x) /\ First (counterpart d m) slave x) subs l.
Proof.
  intros W F O l. assert (subs = submeters master) as -> by (eapply filtered_unique; [exact F|apply submeters_filtered]).
  unfold PairModel.pairs. clear F. revert l. induction O as [|m subs Om _ IH]; intros l; cbn [mapM].
  - split; [intros [= <-]; constructor|intros H; inversion H; reflexivity].
  - destruct (lookup d slave m W Om) as (K1 & _ & _). destruct (pair_up slave m) as [p|e] eqn:E; cbn [bind].
    + destruct (mapM (pair_up slave) subs) as [r|e] eqn:Er; cbn [bind].
      * split.
        -- intros [= <-]. constructor; [apply K1; reflexivity|apply IH; reflexivity].
        -- intros H. inversion H as [|? p' ? r' Hp Hr]; subst. apply K1 in Hp. apply IH in Hr. congruence.
      * split; [discriminate|]. intros H. inversion H as [|? p' ? r' Hp Hr]; subst. apply IH in Hr. discriminate.
    + split; [discriminate|]. intros H. inversion H as [|? p' ? r' Hp Hr]; subst. apply K1 in Hp. discriminate.
Qed.

Lemma pairs_err d master slave subs : within_dataset d (Grp slave) -> Filtered is_submeter master subs ->
  Forall (fun m => ordinary (ident m)) subs ->
  (pairs master slave = Err KeyError <-> exists m, In m subs /\ forall x, In x slave -> ~ counterpart d m x) /\
  (forall e, pairs master slave = Err e -> e = KeyError).
Proof.
  intros W F O. assert (subs = submeters master) as -> by (eapply filtered_unique; [exact F|apply submeters_filtered]).
  unfold PairModel.pairs. clear F. induction O as [|m subs Om _ IH]; cbn [mapM].
  - split; [split; [discriminate|intros (m & [] & _)]|discriminate].
  - destruct (lookup d slave m W Om) as (K1 & K2 & K3). destruct (pair_up slave m) as [p|e] eqn:E; cbn [bind].
    + destruct IH as (IH1 & IH2). assert (NC : ~ forall x, In x slave -> ~ counterpart d m x) by (intros N; apply K2 in N; discriminate).
      destruct (mapM (pair_up slave) subs) as [r|e] eqn:Er; cbn [bind].
      * split; [|discriminate]. split; [discriminate|]. intros (m' & [<-|I] & N); [contradiction|].
        assert (Ok r = Err KeyError) by (apply IH1; eauto). discriminate.
      * split; [|exact IH2]. rewrite IH1. split; intros (m' & I & N); exists m'; (split; [|exact N]); [right; exact I|].
        destruct I as [<-|I]; [contradiction|exact I].
    + rewrite (K3 e eq_refl) in *. split; [|congruence]. split; [|reflexivity]. intros _. exists m. split; [left; reflexivity|]. apply K2. reflexivity.
Qed.

(** *** The Series of scores *)
Section Score.
Context {V : Type}.
Variable score : node * found app -> res V.
Notation step := (fun d p => do v <- score p; Ok (assign (instance (fst p)) v d)).


Lemma get_assign (k : obj) (v : V) d k' : get k' (assign k v d) = if py_eq k' k then Some v else get k' d.
Proof.
  assert (P : forall a b c, py_eq a b = true -> py_eq c a = py_eq c b).
  { intros a b c H. apply py_eq_iff in H. unfold py_eq. unfold Same in H. rewrite H. reflexivity. }
  induction d as [|[k0 v0] d IH]; cbn [assign get].
  - reflexivity.
  - destruct (py_eq k k0) eqn:E; cbn [get].
    + rewrite (P _ _ k' E). destruct (py_eq k' k0); reflexivity.
    + rewrite IH. destruct (py_eq k' k0) eqn:E0; [|reflexivity]. destruct (py_eq k' k) eqn:E1; [|reflexivity].
      apply py_eq_iff in E0, E1. exfalso. assert (py_eq k k0 = true); [|congruence]. apply py_eq_iff. eapply Same_trans; [apply Same_sym; exact E1|exact E0].
Qed.

Lemma assign_new (k : obj) (v : V) d : ~ Member k (map fst d) -> assign k v d = d ++ [(k, v)].
Proof.
  induction d as [|[k0 v0] d IH]; intros N; cbn [assign]; [reflexivity|]. destruct (py_eq k k0) eqn:E.
  - exfalso. apply N. exists k0. split; [left; reflexivity|]. apply py_eq_iff. exact E.
  - cbn. f_equal. apply IH. intros (y & I & S). apply N. exists y. split; [right; exact I|exact S].
Qed.

Lemma assign_keys (k : obj) (v : V) d : map fst (assign k v d) = if mem k (map fst d) then map fst d else map fst d ++ [k].
Proof.
  induction d as [|[k0 v0] d IH]; cbn [assign map mem existsb fst]; [reflexivity|]. destruct (py_eq k k0) eqn:E; [reflexivity|].
  cbn [map fst orb]. rewrite IH. unfold mem. destruct (existsb (py_eq k) (map fst d)); reflexivity.
Qed.

Lemma scores_get ps : forall d r, foldM step ps d = Ok r -> forall k,
  (exists p v, Last (fun p => Same k (instance (fst p))) ps p /\ score p = Ok v /\ get k r = Some v) \/
  ((forall p, In p ps -> ~ Same k (instance (fst p))) /\ get k r = get k d).
Proof.
  induction ps as [|p ps IH]; intros d r H k; cbn [foldM] in H.
  - injection H as <-. right. split; [intros p []|reflexivity].
  - destruct (score p) as [v|e] eqn:Ev; cbn [bind] in H; [|discriminate].
    destruct (IH _ _ H k) as [(p' & v' & (l1 & l2 & E & S & N) & Es & G)|(N & G)].
    + left. exists p', v'. split; [|split; assumption]. exists (p :: l1), l2. split; [rewrite E; reflexivity|]. split; assumption.
    + rewrite get_assign in G. destruct (py_eq k (instance (fst p))) eqn:Ek.
      * left. exists p, v. split; [|split; assumption]. exists [], ps. split; [reflexivity|]. split; [apply py_eq_iff; exact Ek|exact N].
      * right. split; [|exact G]. intros p' [<-|I]; [|apply N; exact I]. intros S. apply py_eq_iff in S. congruence.
Qed.

Lemma scores_keys ps : forall d r, foldM step ps d = Ok r -> forall k, Member k (map fst r) <-> Member k (map fst d) \/ exists p, In p ps /\ Same k (instance (fst p)).
Proof.
  induction ps as [|p ps IH]; intros d r H k; cbn [foldM] in H.
  - injection H as <-. split; [auto|]. intros [H|(p & [] & _)]. exact H.
  - destruct (score p) as [v|e] eqn:Ev; cbn [bind] in H; [|discriminate]. rewrite (IH _ _ H k). rewrite assign_keys.
    assert (M : Member k (if mem (instance (fst p)) (map fst d) then map fst d else map fst d ++ [instance (fst p)]) <-> Member k (map fst d) \/ Same k (instance (fst p))).
    { destruct (mem (instance (fst p)) (map fst d)) eqn:Em.
      - split; [auto|]. intros [H0|S]; [exact H0|]. apply mem_iff in Em. eapply Member_same; [exact S|exact Em].
      - rewrite Member_app. split; intros [H0|H0]; auto; right.
        + destruct H0 as (y & [<-|[]] & S). exact S.
        + exists (instance (fst p)). split; [left; reflexivity|exact H0]. }
    rewrite M. split.
    + intros [[H0|S]|(p' & I & S)]; [auto|right; exists p; split; [left; reflexivity|exact S]|right; exists p'; split; [right; exact I|exact S]].
    + intros [H0|(p' & [<-|I] & S)]; [auto|auto|right; eauto].
Qed.

(** One entry per pair if the instances differ. *)
Lemma scores_distinct ps : forall d r, foldM step ps d = Ok r ->
  ForallOrdPairs (fun p q => ~ Same (instance (fst p)) (instance (fst q))) ps ->
  (forall p, In p ps -> ~ Member (instance (fst p)) (map fst d)) ->
  exists vs, r = d ++ combine (map (fun p => instance (fst p)) ps) vs /\ Forall2 (fun p v => score p = Ok v) ps vs.
Proof.
  induction ps as [|p ps IH]; intros d r H D N; cbn [foldM] in H.
  - injection H as <-. exists []. split; [rewrite app_nil_r; reflexivity|constructor].
  - destruct (score p) as [v|e] eqn:Ev; cbn [bind] in H; [|discriminate].
    inversion D as [|? ? D1 D2]; subst. rewrite assign_new in H by (apply N; left; reflexivity).
    destruct (IH _ _ H D2) as (vs & -> & F).
    + intros q I M. rewrite map_app in M. apply Member_app in M. destruct M as [M|(y & [<-|[]] & S)].
      * apply (N q); [right; exact I|exact M].
      * rewrite Forall_forall in D1. apply (D1 q I). apply Same_sym. exact S.
    + exists (v :: vs). split; [cbn; rewrite <- app_assoc; reflexivity|constructor; assumption].
Qed.

Lemma scores_err ps : forall d e, foldM step ps d = Err e -> exists p, In p ps /\ score p = Err e.
Proof.
  induction ps as [|p ps IH]; intros d e H; cbn [foldM] in H; [discriminate|].
  destruct (score p) as [v|e'] eqn:Ev; cbn [bind] in H.
  - destruct (IH _ _ H) as (q & I & E). exists q. split; [right; exact I|exact E].
  - injection H as ->. exists p. split; [left; reflexivity|exact Ev].
Qed.
Lemma scores_total ps : (forall p, In p ps -> exists v, score p = Ok v) -> forall d, exists r, foldM step ps d = Ok r.
Proof.
  induction ps as [|p ps IH]; intros T d; cbn [foldM]; [eauto|]. destruct (T p (or_introl eq_refl)) as (v & ->). cbn [bind].
  apply IH. intros q I. apply T. right. exact I.
Qed.
End Score.
End Pairs.
