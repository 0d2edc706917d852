From Verif Require Import Base MatchModel MatchSpec.
From Coq Require Import Permutation.
Open Scope nat_scope.

Lemma veq_spec x y : veq x y = true <-> x = y.
Proof. unfold veq. destruct (value_dec x y); split; congruence. Qed.
Lemma in_list_spec v l : in_list v l = true <-> exists n, v = Atom n /\ In n l.
Proof.
  destruct v as [n|l']; cbn; [|split; [discriminate|intros (n & H & _); discriminate]]. rewrite existsb_exists. split.
  - intros (x & Hx & E). apply Nat.eqb_eq in E. subst x. eauto.
  - intros (m & H & Hm). injection H as <-. exists n. split; [exact Hm|apply Nat.eqb_refl].
Qed.
Lemma same_opt_spec o v : same_opt o v = true <-> o = Some v.
Proof. destruct o as [w|]; cbn; [rewrite veq_spec|]; split; congruence. Qed.
Lemma type_value_spec w v : type_value_matches w v = true <-> value_covers w v.
Proof.
  unfold value_covers. destruct w as [m|l], v as [n|l']; cbn [type_value_matches]; try (rewrite veq_spec; split; [intros H; left; exact H|intros [H|(l0 & n0 & H1 & H2 & _)]; [exact H|discriminate]]).
  rewrite in_list_spec. split; [intros (k & H1 & H2); right; exists l, n; injection H1 as <-; auto|]. intros [H|(l0 & n0 & H1 & H2 & H3)]; [discriminate|]. injection H1 as <-. eauto.
Qed.

(** The loop. *)
Section Loop.
  Variable f : name -> value -> res bool.
  Lemma loop_false d : forall m, loop f d m = match loop f d true with Ok b => Ok (b && m) | Err e => Err e end.
  Proof.
    induction d as [|[k v] d IH]; intros m; cbn; [reflexivity|]. destruct (f k v) as [b|e]; cbn [bind]; [|reflexivity]. destruct b; [apply IH|]. rewrite (IH false). destruct (loop f d true) as [c|e]; [|reflexivity]. rewrite andb_false_r. reflexivity.
  Qed.
  Lemma loop_cons k v d : loop f ((k, v) :: d) true = do b <- f k v; do c <- loop f d true; Ok (b && c).
  Proof. cbn. destruct (f k v) as [b|e]; cbn [bind]; [|reflexivity]. destruct b; [destruct (loop f d true); reflexivity|]. rewrite loop_false. destruct (loop f d true) as [c|e]; [|reflexivity]. cbn. rewrite andb_false_r. reflexivity. Qed.
  Lemma run_single k v : run_query f (QDict [(k, v)]) = f k v.
  Proof. cbn. destruct (f k v) as [[]|]; reflexivity. Qed.
  Lemma run_dict d : run_query f (QDict d) = loop f d true.
  Proof. destruct d; reflexivity. Qed.

  Lemma loop_true d : loop f d true = Ok true <-> forall k v, In (k, v) d -> f k v = Ok true.
  Proof.
    induction d as [|[k v] d IH]; [split; [intros _ k v []|reflexivity]|]. rewrite loop_cons. split.
    - intros H. destruct (f k v) as [b|e] eqn:E; [|discriminate]. cbn [bind] in H. destruct (loop f d true) as [c|e]; [|discriminate]. cbn [bind] in H. injection H as H. apply andb_true_iff in H. destruct H as [-> ->]. intros k' v' [X|X]; [injection X as <- <-; exact E|]. apply (proj1 IH eq_refl). exact X.
    - intros H. rewrite (H k v) by (left; reflexivity). cbn [bind]. rewrite (proj2 IH) by (intros k' v' X; apply H; right; exact X). reflexivity.
  Qed.
  Lemma loop_err d : (exists e, loop f d true = Err e) <-> exists k v e, In (k, v) d /\ f k v = Err e.
  Proof.
    induction d as [|[k v] d IH]; [split; [intros [e H]; discriminate|intros (k & v & e & [] & _)]|]. rewrite loop_cons. split.
    - intros [e H]. destruct (f k v) as [b|e'] eqn:E; cbn [bind] in H; [|exists k, v, e'; split; [left; reflexivity|exact E]]. destruct (loop f d true) as [c|e'] eqn:E2; cbn [bind] in H; [discriminate|]. destruct (proj1 IH (ex_intro _ e' eq_refl)) as (k' & v' & e2 & X & Y). exists k', v', e2. split; [right; exact X|exact Y].
    - intros (k' & v' & e & [X|X] & Y); [injection X as <- <-; rewrite Y; cbn; eauto|]. destruct (f k v) as [b|e']; cbn [bind]; [|eauto]. destruct (proj2 IH) as [e2 ->]; [eauto|]. cbn. eauto.
  Qed.
  Lemma loop_false_iff d : loop f d true = Ok false <-> (forall k v, In (k, v) d -> exists b, f k v = Ok b) /\ exists k v, In (k, v) d /\ f k v = Ok false.
  Proof.
    split.
    - intros H. split.
      + intros k v HI. destruct (f k v) as [b|e] eqn:E; [eauto|]. destruct (proj2 (loop_err d)) as [e' E']; [eauto|]. congruence.
      + revert H. induction d as [|[k v] d IH]; [discriminate|]. rewrite loop_cons. destruct (f k v) as [b|e] eqn:E; [|discriminate]. cbn [bind]. destruct (loop f d true) as [c|e]; [|discriminate]. cbn [bind]. intros H. injection H as H. destruct b; [|exists k, v; split; [left; reflexivity|exact E]]. cbn in H. subst c. destruct (IH eq_refl) as (k' & v' & X & Y). exists k', v'. split; [right; exact X|exact Y].
    - intros [H (k & v & HI & HF)]. destruct (loop f d true) as [[]|e] eqn:E.
      + apply loop_true with (k := k) (v := v) in E; [congruence|exact HI].
      + reflexivity.
      + destruct (proj1 (loop_err d)) as (k' & v' & e' & X & Y); [eauto|]. destruct (H k' v' X). congruence.
  Qed.
  Lemma loop_perm d d' : Permutation d d' -> same_outcome (loop f d true) (loop f d' true).
  Proof.
    intros HP. unfold same_outcome. assert (IN : forall k v, In (k, v) d <-> In (k, v) d') by (intros k v; split; intros H; eapply Permutation_in; try exact H; [exact HP|symmetry; exact HP]).
    destruct (loop f d true) as [[]|e] eqn:E; destruct (loop f d' true) as [[]|e'] eqn:E'; auto; try (right; eauto; fail); exfalso.
    - rewrite loop_true in E. rewrite loop_false_iff in E'. destruct E' as (_ & k & v & X & Y). rewrite (E k v) in Y by (apply IN; exact X). discriminate.
    - rewrite loop_true in E. destruct (proj1 (loop_err d')) as (k & v & e & X & Y); [eauto|]. rewrite (E k v) in Y by (apply IN; exact X). discriminate.
    - rewrite loop_true in E'. rewrite loop_false_iff in E. destruct E as (_ & k & v & X & Y). rewrite (E' k v) in Y by (apply IN; exact X). discriminate.
    - rewrite loop_false_iff in E. destruct E as (E & _). destruct (proj1 (loop_err d')) as (k & v & e & X & Y); [eauto|]. destruct (E k v) as [b Eb]; [apply IN; exact X|]. congruence.
    - rewrite loop_true in E'. destruct (proj1 (loop_err d)) as (k & v & e2 & X & Y); [eauto|]. rewrite (E' k v) in Y by (apply IN; exact X). discriminate.
    - rewrite loop_false_iff in E'. destruct E' as (E' & _). destruct (proj1 (loop_err d)) as (k & v & e2 & X & Y); [eauto|]. destruct (E' k v) as [b Eb]; [apply IN; exact X|]. congruence.
  Qed.

  Lemma conj_thm d :
    (run_query f (QDict d) = Ok true <-> forall k v, In (k, v) d -> run_query f (QDict [(k, v)]) = Ok true) /\
    (run_query f (QDict d) = Ok false <-> (forall k v, In (k, v) d -> exists b, run_query f (QDict [(k, v)]) = Ok b) /\ exists k v, In (k, v) d /\ run_query f (QDict [(k, v)]) = Ok false) /\
    ((exists e, run_query f (QDict d) = Err e) <-> exists k v e, In (k, v) d /\ run_query f (QDict [(k, v)]) = Err e).
  Proof.
    setoid_rewrite run_single. rewrite run_dict. split; [apply loop_true|]. split; [apply loop_false_iff|apply loop_err].
  Qed.
  Lemma perm_thm d d' : Permutation d d' -> same_outcome (run_query f (QDict d)) (run_query f (QDict d')).
  Proof. rewrite !run_dict. apply loop_perm. Qed.
End Loop.

(** One key of a meter. *)
Lemma meter_key_true m k v : meter_matches m (QDict [(k, v)]) = Ok true <-> meter_has m k v.
Proof.
  unfold meter_matches. rewrite run_single. split.
  - intros H. assert (G : k <> InstanceN -> k <> BuildingN -> k <> DatasetN -> (forall n, k <> Method n) ->
      match get k (m_metadata m) with Some w => Ok (veq w v) | None => do d <- m_device m; match get k d with Some w => Ok (type_value_matches w v) | None => Err KeyError end end = Ok true -> meter_has m k v).
    { intros N1 N2 N3 N4 X. destruct (get k (m_metadata m)) as [w|] eqn:E.
      - injection X as X. apply veq_spec in X. subst w. apply mh_metadata; assumption.
      - destruct (m_device m) as [d|e] eqn:D; [|discriminate]. cbn [bind] in X. destruct (get k d) as [w|] eqn:W; [|discriminate]. injection X as X. apply type_value_spec in X. eapply mh_device; eassumption. }
    destruct k; cbn [meter_key] in H; try (apply G; [discriminate|discriminate|discriminate|intros; discriminate|exact H]); injection H as H; try (apply veq_spec in H; constructor; exact H). discriminate.
  - intros H. destruct H as [v E|v E|v E|k v N1 N2 N3 N4 E|k v d w N1 N2 N3 N4 E D W C].
    1-3: cbn; f_equal; apply veq_spec; exact E.
    + assert (VV : veq v v = true) by (apply veq_spec; reflexivity). destruct k; try congruence; cbn [meter_key]; try (rewrite E, VV; reflexivity).
    + apply type_value_spec in C. destruct k; try congruence; cbn [meter_key]; try (rewrite E, D; cbn [bind]; rewrite W, C; reflexivity).
Qed.
Lemma meter_key_unknown m k v : (forall e, m_device m = Err e -> e = KeyError) -> ~ meter_knows m k <-> meter_key m k v = Err KeyError.
Proof.
  intros HD. unfold meter_knows. split.
  - intros H. assert (G : match get k (m_metadata m) with Some w => Ok (veq w v) | None => do d <- m_device m; match get k d with Some w => Ok (type_value_matches w v) | None => Err KeyError end end = Err KeyError).
    { destruct (get k (m_metadata m)) as [w|] eqn:E; [exfalso; apply H; do 4 right; left; exists w; reflexivity|]. destruct (m_device m) as [d|e] eqn:D; cbn [bind]; [|rewrite (HD e eq_refl); reflexivity]. destruct (get k d) as [w|] eqn:W; [exfalso; apply H; do 5 right; exists d, w; auto|reflexivity]. }
    destruct k; cbn [meter_key]; try exact G; exfalso; apply H; auto. do 3 right. left. eauto.
  - intros E H. destruct H as [->|[->|[->|[(n & ->)|[(w & W)|(d & w & D & W)]]]]]; try discriminate E.
    + destruct k; cbn [meter_key] in E; try discriminate E; rewrite W in E; discriminate E.
    + destruct k; cbn [meter_key] in E; try discriminate E; rewrite D in E; cbn [bind] in E; rewrite W in E; destruct (get _ (m_metadata m)); discriminate E.
Qed.

(** One key of an appliance. *)
Lemma app_key_true types syn a k v : app_matches types syn a (QDict [(k, v)]) = Ok true -> app_has types syn a k v.
Proof.
  unfold app_matches. rewrite run_single. intros H.
  assert (T : forall t, type_of types a = Ok t -> exists y, get TypeN (a_metadata a) = Some y /\ types y = Some t).
  { intros t E. unfold type_of in E. destruct (get TypeN (a_metadata a)) as [y|]; [|discriminate]. destruct (types y) as [x|] eqn:Ty; [|discriminate]. injection E as <-. eauto. }
  assert (G : k <> TypeN -> k <> InstanceN -> (forall n, k <> Method n) ->
    match get k (a_metadata a) with Some w => Ok (veq w v) | None => if name_dec k CategoryN then do t <- type_of types a; match t_categories t with Some cs => Ok (in_list v (concat cs)) | None => Err AttributeError end else do t <- type_of types a; match get k (t_attrs t) with Some w => Ok (type_value_matches w v) | None => Err KeyError end end = Ok true -> app_has types syn a k v).
  { intros N1 N2 N3 X. destruct (get k (a_metadata a)) as [w|] eqn:E.
    - injection X as X. apply veq_spec in X. subst w. apply ah_metadata; assumption.
    - destruct (name_dec k CategoryN) as [->|NC].
      + destruct (type_of types a) as [t|e] eqn:Ty; [|discriminate]. cbn [bind] in X. destruct (t_categories t) as [cs|] eqn:C; [|discriminate]. injection X as X. apply in_list_spec in X. destruct X as (n & -> & X). apply in_concat in X. destruct X as (c & X1 & X2). destruct (T t eq_refl) as (y & Y1 & Y2). eapply ah_category; eassumption.
      + destruct (type_of types a) as [t|e] eqn:Ty; [|discriminate]. cbn [bind] in X. destruct (get k (t_attrs t)) as [w|] eqn:W; [|discriminate]. injection X as X. apply type_value_spec in X. destruct (T t eq_refl) as (y & Y1 & Y2). eapply ah_attr; eassumption. }
  destruct k; cbn [app_key] in H; try (apply G; [discriminate|discriminate|intros; discriminate|exact H]); try discriminate H.
  - destruct syn.
    + destruct (type_of types a) as [t|e] eqn:Ty; [|discriminate]. cbn [bind] in H. injection H as H. apply orb_true_iff in H. destruct H as [H|H]; [|apply same_opt_spec in H; apply ah_type; exact H].
      apply in_list_spec in H. destruct H as (n & -> & H). destruct (T t eq_refl) as (y & Y1 & Y2). destruct (get SynonymsN (t_attrs t)) as [[m|l]|] eqn:S; try (destruct H; fail). eapply ah_synonym; [reflexivity|exact Y1|exact Y2|exact S|exact H].
    + injection H as H. apply same_opt_spec in H. apply ah_type. exact H.
  - injection H as H. apply same_opt_spec in H. apply ah_instance. exact H.
Qed.
Lemma app_key_has types syn a k v b : app_has types syn a k v -> app_matches types syn a (QDict [(k, v)]) = Ok b -> b = true.
Proof.
  unfold app_matches. rewrite run_single. intros H E.
  assert (VV : veq v v = true) by (apply veq_spec; reflexivity).
  destruct H as [v X|t x l n S X Ty W I|v X|k v N1 N2 N3 X|t x cs c n X Y Ty C I1 I2|k v t x w N1 N2 N3 N4 X Y Ty W C].
  - cbn [app_key] in E. rewrite X in E. cbn [same_opt] in E. rewrite VV in E. destruct syn; [|congruence]. destruct (type_of types a); [|discriminate]. cbn [bind] in E. rewrite orb_true_r in E. congruence.
  - cbn [app_key] in E. subst syn. unfold type_of in E. rewrite X, Ty in E. cbn [bind] in E. rewrite W in E. assert (L : in_list (Atom n) l = true) by (apply in_list_spec; eauto). rewrite L in E. cbn in E. congruence.
  - cbn [app_key] in E. rewrite X in E. cbn [same_opt] in E. congruence.
  - destruct k; try congruence; cbn [app_key] in E; try (rewrite X in E; congruence).
  - cbn [app_key] in E. rewrite X in E. destruct (name_dec CategoryN CategoryN); [|congruence]. unfold type_of in E. rewrite Y, Ty in E. cbn [bind] in E. rewrite C in E. assert (L : in_list (Atom n) (concat cs) = true) by (apply in_list_spec; exists n; split; [reflexivity|]; apply in_concat; eauto). congruence.
  - apply type_value_spec in C. destruct k; try congruence; cbn [app_key] in E; try (rewrite X in E; destruct (name_dec _ CategoryN) as [Q|Q]; [discriminate Q|]; unfold type_of in E; rewrite Y, Ty in E; cbn [bind] in E; rewrite W in E; congruence).
Qed.

(** [select]. *)
Lemma select_get_thm {A} (f : A -> res bool) l r : select_get f l = Ok r -> r = filter (fun x => match f x with Ok b => b | Err _ => false end) l.
Proof.
  revert r. induction l as [|x l IH]; intros r E; cbn in *; [injection E as <-; reflexivity|]. destruct (f x) as [b|e].
  - destruct (select_get f l) as [r'|e]; [|discriminate]. cbn in E. injection E as <-. rewrite <- (IH r' eq_refl). destruct b; reflexivity.
  - destruct e; try discriminate. apply IH. exact E.
Qed.
Lemma select_get_ok {A} (f : A -> res bool) l : (forall x e, In x l -> f x = Err e -> e = KeyError) -> exists r, select_get f l = Ok r.
Proof.
  induction l as [|x l IH]; intros H; cbn; [eauto|]. destruct IH as [r E]; [intros y e Hy; apply H; right; exact Hy|]. destruct (f x) as [b|e] eqn:F; [rewrite E; cbn; eauto|]. rewrite (H x e (or_introl eq_refl) F). eauto.
Qed.
Definition matching {A} (f : A -> query -> res bool) (l : list A) (q : dict) : list A := filter (fun x => match f x (QDict q) with Ok b => b | Err _ => false end) l.
Lemma select_one_thm {A} (f : A -> query -> res bool) l q : (forall x e, In x l -> f x (QDict q) = Err e -> e = KeyError) ->
  (matching f l q <> [] -> select_one f l q = Ok (matching f l q)) /\ (matching f l q = [] -> select_one f l q = Err KeyError).
Proof.
  intros H. unfold select_one. destruct (select_get_ok (fun x => f x (QDict q)) l H) as [r E]. rewrite E. cbn [bind]. apply select_get_thm in E. change (filter _ l) with (matching f l q) in E. rewrite <- E. split; intros X; destruct r; try reflexivity; try contradiction; discriminate.
Qed.

Lemma app_key_knows types syn a k v : app_knows types syn a k <-> exists b, app_key types syn a k v = Ok b.
Proof.
  assert (G : forall k, k <> TypeN -> k <> InstanceN -> (forall n, k <> Method n) ->
    (app_knows types syn a k <-> exists b, match get k (a_metadata a) with Some w => Ok (veq w v) | None => if name_dec k CategoryN then do t <- type_of types a; match t_categories t with Some cs => Ok (in_list v (concat cs)) | None => Err AttributeError end else do t <- type_of types a; match get k (t_attrs t) with Some w => Ok (type_value_matches w v) | None => Err KeyError end end = Ok b)).
  { clear k. intros k N1 N2 N3. split.
    - intros H. destruct H as [|n|S|t x X Ty|k w N X|t x cs X Ty C|k t x w N N' X Ty W]; try congruence.
      + rewrite X. eauto.
      + destruct (get CategoryN (a_metadata a)); [eauto|]. destruct (name_dec CategoryN CategoryN) as [_|]; [|congruence]. unfold type_of. rewrite X, Ty. cbn [bind]. rewrite C. eauto.
      + destruct (get k (a_metadata a)); [eauto|]. destruct (name_dec k CategoryN) as [|_]; [congruence|]. unfold type_of. rewrite X, Ty. cbn [bind]. rewrite W. eauto.
    - intros [b E]. destruct (get k (a_metadata a)) as [w|] eqn:X; [eapply ak_metadata; eassumption|]. unfold type_of in E. destruct (name_dec k CategoryN) as [->|N].
      + destruct (get TypeN (a_metadata a)) as [t|] eqn:T; [|discriminate]. destruct (types t) as [x|] eqn:Ty; [|discriminate]. cbn [bind] in E. destruct (t_categories x) as [cs|] eqn:C; [|discriminate]. eapply ak_category; eassumption.
      + destruct (get TypeN (a_metadata a)) as [t|] eqn:T; [|discriminate]. destruct (types t) as [x|] eqn:Ty; [|discriminate]. cbn [bind] in E. destruct (get k (t_attrs x)) as [w|] eqn:C; [|discriminate]. eapply ak_attr; eassumption. }
  destruct k; try (apply G; [discriminate|discriminate|intros; discriminate]).
  - cbn [app_key]. split.
    + intros H. destruct syn; [|eauto]. inversion H; subst; try congruence. unfold type_of. rewrite H0, H1. cbn [bind]. eauto.
    + intros [b E]. destruct syn; [|apply ak_type_plain; reflexivity]. unfold type_of in E. destruct (get TypeN (a_metadata a)) as [t|] eqn:T; [|discriminate]. destruct (types t) as [x|] eqn:Ty; [|discriminate]. eapply ak_type; eassumption.
  - split; [cbn; eauto|intros _; apply ak_instance].
  - split; [cbn; eauto|intros _; apply ak_method].
Qed.

Lemma app_unknown types syn a d : (exists e, app_matches types syn a (QDict d) = Err e) <-> exists k v, In (k, v) d /\ ~ app_knows types syn a k.
Proof.
  unfold app_matches. rewrite run_dict, loop_err. split.
  - intros (k & v & e & I & E). exists k, v. split; [exact I|]. rewrite (app_key_knows types syn a k v). intros [b E']. congruence.
  - intros (k & v & I & N). exists k, v. rewrite (app_key_knows types syn a k v) in N. destruct (app_key types syn a k v) as [b|e] eqn:E; [exfalso; apply N; eauto|exists e; auto].
Qed.
Lemma loop_first_err f d e : loop f d true = Err e -> exists k v, In (k, v) d /\ f k v = Err e.
Proof.
  induction d as [|[k v] d IH]; [discriminate|]. rewrite loop_cons. destruct (f k v) as [b|e'] eqn:E; cbn [bind].
  - destruct (loop f d true) as [c|e']; cbn [bind]; [discriminate|]. intros X. injection X as ->. destruct (IH eq_refl) as (k' & v' & X & Y). exists k', v'. split; [right; exact X|exact Y].
  - intros X. injection X as ->. exists k, v. split; [left; reflexivity|exact E].
Qed.
(** Which exception: KeyError, or AttributeError for a type without categories. *)
Lemma app_error types syn a d e : app_matches types syn a (QDict d) = Err e -> e = KeyError \/ e = AttributeError.
Proof.
  unfold app_matches. rewrite run_dict. intros H. apply loop_first_err in H. destruct H as (k & v & _ & E).
  destruct k; cbn [app_key] in E; try discriminate E; unfold type_of in E;
  repeat match type of E with
  | (if ?b then _ else _) = _ => destruct b
  | match ?o with Some _ => _ | None => _ end = _ => destruct o
  | bind ?o _ = _ => match o with | match ?p with Some _ => _ | None => _ end => destruct p end
  | context [bind (Ok _) _] => cbn [bind] in E
  | context [bind (Err _) _] => cbn [bind] in E
  end; try discriminate E; try (injection E as <-; auto);
  repeat match type of E with
  | context [match ?o with Some _ => _ | None => _ end] => destruct o
  | context [bind (Ok _) _] => cbn [bind] in E
  | context [bind (Err _) _] => cbn [bind] in E
  end; try discriminate E; injection E as <-; auto.
Qed.
Lemma meter_unknown m d : (forall e, m_device m = Err e -> e = KeyError) ->
  (meter_matches m (QDict d) = Err KeyError <-> exists k v, In (k, v) d /\ ~ meter_knows m k) /\ (forall e, meter_matches m (QDict d) = Err e -> e = KeyError).
Proof.
  intros HD. unfold meter_matches. rewrite run_dict.
  assert (ERR : forall k v e, meter_key m k v = Err e -> e = KeyError).
  { intros k v e E. destruct k; cbn [meter_key] in E; try discriminate E; (destruct (get _ (m_metadata m)); [discriminate E|]; destruct (m_device m) as [dd|e'] eqn:D; cbn [bind] in E; [destruct (get _ dd); [discriminate E|injection E as <-; reflexivity]|injection E as <-; apply HD; reflexivity]). }
  assert (L : forall e, loop (meter_key m) d true = Err e -> e = KeyError).
  { intros e H. apply loop_first_err in H. destruct H as (k & v & _ & E). eapply ERR; exact E. }
  split; [|exact L]. split.
  - intros H. apply loop_first_err in H. destruct H as (k & v & I & E). exists k, v. split; [exact I|]. apply (meter_key_unknown m k v HD). exact E.
  - intros (k & v & I & N). destruct (proj2 (loop_err (meter_key m) d)) as [e E]; [exists k, v, KeyError; split; [exact I|apply (meter_key_unknown m k v HD); exact N]|]. rewrite E. f_equal. apply L. exact E.
Qed.

(** select with a list of values *)
Lemma matching_in {A} (f : A -> query -> res bool) l q x : In x (matching f l q) <-> In x l /\ f x (QDict q) = Ok true.
Proof. unfold matching. rewrite filter_In. destruct (f x (QDict q)); split; intros [H E]; split; congruence. Qed.
Lemma select_list_thm {A} (f : A -> query -> res bool) (l : list A) (k : name) (vs : list nat) :
  (forall x v e, In x l -> In v vs -> f x (QDict [(k, Atom v)]) = Err e -> e = KeyError) ->
  match select f l [(k, ListV vs)] with
  | Ok r => (forall x, In x r <-> In x l /\ exists v, In v vs /\ f x (QDict [(k, Atom v)]) = Ok true) /\ (forall v, In v vs -> exists x, In x l /\ f x (QDict [(k, Atom v)]) = Ok true)
  | Err e => e = KeyError /\ exists v, In v vs /\ forall x, In x l -> f x (QDict [(k, Atom v)]) <> Ok true
  end.
Proof.
  intros H. cbn [select].
  assert (G : match mapM (fun v => select_one f l [(k, Atom v)]) vs with
    | Ok r => (forall x, In x (concat r) <-> In x l /\ exists v, In v vs /\ f x (QDict [(k, Atom v)]) = Ok true) /\ (forall v, In v vs -> exists x, In x l /\ f x (QDict [(k, Atom v)]) = Ok true)
    | Err e => e = KeyError /\ exists v, In v vs /\ forall x, In x l -> f x (QDict [(k, Atom v)]) <> Ok true end).
  { induction vs as [|v vs IH]; cbn [mapM].
    - split; [|intros v []]. intros x. cbn. split; [intros []|intros (_ & v & [] & _)].
    - specialize (IH (fun x w e Hx Hw => H x w e Hx (or_intror Hw))).
      destruct (select_one_thm f l [(k, Atom v)] (fun x e Hx => H x v e Hx (or_introl eq_refl))) as [S1 S2].
      assert (MI := matching_in f l [(k, Atom v)]).
      destruct (matching f l [(k, Atom v)]) as [|y r] eqn:EM.
      + rewrite (S2 eq_refl). cbn [bind]. split; [reflexivity|]. exists v. split; [left; reflexivity|]. intros x Hx E. apply (proj2 (MI x)). auto.
      + rewrite S1 by discriminate. cbn [bind]. destruct (mapM (fun v => select_one f l [(k, Atom v)]) vs) as [rs|e]; cbn [bind].
        * destruct IH as [I1 I2]. split.
          -- intros x. cbn [concat]. rewrite in_app_iff, MI, I1. split.
             ++ intros [[Hx E]|[Hx (w & Hw & E)]]; split; auto; [exists v|exists w]; cbn; auto.
             ++ intros [Hx (w & [<-|Hw] & E)]; [left; auto|right; eauto].
          -- intros w [<-|Hw]; [exists y; apply MI; left; reflexivity|auto].
        * destruct IH as [-> (w & Hw & E)]. split; [reflexivity|]. exists w. split; [right; exact Hw|exact E]. }
  destruct (mapM _ vs); cbn [bind]; exact G.
Qed.
