(** Proofs about retrieving meters by number, by appliance, and in bulk. *)
From Verif Require Import Base ItemModel ItemSpec ItemProofs.
Import List. Open Scope list_scope. Open Scope Z_scope.

Section Proofs.
Context {app : Type}.
Variable matches : app -> list (nat * obj) -> res bool.
Variable order : list app -> list app.
Notation node := (node app).
Notation getitem := (getitem matches order).

(** ** By number *)
Definition candidates_of (k : Z) : list node -> res (list node) :=
  fix all (l : list node) : res (list node) := match l with [] => Ok [] | y :: l' => do c <- candidates k y; do r <- all l'; Ok (c ++ r) end.
Lemma candidates_grp k ms : candidates k (Grp ms : node) =
  if mem (Int k) (map instance ms) then (do c <- candidates_of k ms; do y <- exactly_one c; Ok [y]) else Ok [].
Proof. reflexivity. Qed.
Lemma get_int_of ms k : get_int ms k = (do c <- candidates_of k ms; do x <- exactly_one c; Ok (One (app := app) x)).
Proof.
  unfold get_int. assert (E : candidates_of k ms = (do cs <- mapM (candidates k) ms; Ok (concat cs))).
  { induction ms as [|x ms IH]; [reflexivity|]. cbn [candidates_of mapM bind]. destruct (candidates k x); [|reflexivity]. cbn [bind]. rewrite IH. destruct (mapM (candidates k) ms); reflexivity. }
  rewrite E. destruct (mapM (candidates k) ms); reflexivity.
Qed.

Lemma int_eq i k : py_eq i (Int k) = true -> i = Int k \/ exists b, i = Bool b.
Proof. intros H. apply py_eq_iff in H. unfold Same in H. destruct i; cbn in H; try discriminate; [left; congruence|right; eexists; reflexivity]. Qed.

(** Everything that is found is a meter that mentions the number. *)
Lemma candidates_sound k (x : node) : forall l, candidates k x = Ok l -> Forall (fun y => In y (leaves x) /\ mentions k y) l.
Proof.
  induction x as [i b d s a|ms IH] using node_ind2; intros l H.
  - assert (S : forall (c : bool) (x : node), (c = true -> In x (leaves (Meter i b d s a)) /\ mentions k x) -> Forall (fun y => In y (leaves (Meter i b d s a)) /\ mentions k y) (if c then [x] else [])) by (intros [] x Hx; [constructor; [apply Hx; reflexivity|constructor]|constructor]).
    cbn [candidates] in H. destruct i; injection H as <-; try constructor; apply S; intros E; (split; [left; reflexivity|]); cbn [mentions].
    + left. apply py_eq_iff. exact E.
    + left. apply py_eq_iff. exact E.
    + right. eexists. split; [left; reflexivity|]. apply mem_iff. exact E.
    + right. eexists. split; [right; reflexivity|]. apply mem_iff. exact E.
  - rewrite candidates_grp in H. destruct (mem _ _); [|injection H as <-; constructor].
    assert (A : forall c, candidates_of k ms = Ok c -> Forall (fun y => In y (leaves (Grp ms)) /\ mentions k y) c).
    { clear H. cbn [leaves]. induction IH as [|x ms Hx _ IHms]; intros c E; [injection E as <-; constructor|]. cbn [candidates_of] in E. fold (candidates_of k) in E.
      destruct (candidates k x) as [cx|]; [|discriminate]. cbn [bind] in E. destruct (candidates_of k ms) as [r|]; [|discriminate]. injection E as <-.
      cbn [map concat]. apply Forall_app. split.
      - eapply Forall_impl; [|apply Hx; reflexivity]. intros y [I M]. split; [apply in_or_app; left; exact I|exact M].
      - eapply Forall_impl; [|apply IHms; reflexivity]. intros y [I M]. split; [apply in_or_app; right; exact I|exact M]. }
    destruct (candidates_of k ms) as [c|]; [|discriminate]. specialize (A c eq_refl). cbn [bind] in H. destruct c as [|y [|z c]]; try discriminate. injection H as <-. exact A.
Qed.

Lemma candidates_seen k (x : node) : (seen k x -> (exists y l, candidates k x = Ok (y :: l)) \/ candidates k x = Err GenericException) /\ (~ seen k x -> candidates k x = Ok []).
Proof.
  induction x as [i b d s a|ms IH] using node_ind2.
  - assert (E : (exists y l, candidates k (Meter i b d s a) = Ok (y :: l)) /\ mentions k (Meter i b d s a) \/ candidates k (Meter i b d s a) = Ok [] /\ ~ mentions k (Meter i b d s a)).
    { cbn [candidates mentions]. destruct i as [n|c|z|l|l|q|i1 i2 i3|l|n]; try (right; split; [reflexivity|]; intros [S|(l' & [S|S] & _)]; discriminate).
      - destruct (py_eq (Int n) (Int k)) eqn:E; [left|right].
        + split; [eexists; eexists; reflexivity|left; apply py_eq_iff; exact E].
        + split; [reflexivity|]. intros [S|(l' & [S|S] & _)]; try discriminate. apply py_eq_iff in S. congruence.
      - destruct (py_eq (Bool c) (Int k)) eqn:E; [left|right].
        + split; [eexists; eexists; reflexivity|left; apply py_eq_iff; exact E].
        + split; [reflexivity|]. intros [S|(l' & [S|S] & _)]; try discriminate. apply py_eq_iff in S. congruence.
      - destruct (mem (Int k) l) eqn:E; [left|right].
        + split; [eexists; eexists; reflexivity|right]. exists l. split; [left; reflexivity|apply mem_iff; exact E].
        + split; [reflexivity|]. intros [S|(l' & [S|S] & M)]; try discriminate. injection S as ->. apply mem_iff in M. congruence.
      - destruct (mem (Int k) l) eqn:E; [left|right].
        + split; [eexists; eexists; reflexivity|right]. exists l. split; [right; reflexivity|apply mem_iff; exact E].
        + split; [reflexivity|]. intros [S|(l' & [S|S] & M)]; try discriminate. injection S as ->. apply mem_iff in M. congruence. }
    unfold seen. destruct E as [[E M]|[E M]]; (split; intros H).
    + left. exact E.
    + exfalso. apply H. left. exact M.
    + exfalso. destruct H as [H|(ms & y & H & _)]; [contradiction|discriminate].
    + exact E.
  - rewrite candidates_grp. destruct (mem (Int k) (map instance ms)) eqn:E.
    + apply mem_iff in E. destruct E as (z & Iz & Ez). apply in_map_iff in Iz. destruct Iz as (y & <- & Iy). split; intros H; [|exfalso; apply H; right; exists ms, y; repeat split; [exact Iy|apply Same_sym; exact Ez]].
      assert (A : (exists w c, candidates_of k ms = Ok (w :: c)) \/ candidates_of k ms = Err GenericException).
      { clear H. assert (G : forall l, (forall x, In x l -> In x ms) -> (exists c, candidates_of k l = Ok c /\ (In y l -> c <> [])) \/ candidates_of k l = Err GenericException).
        { induction l as [|x l IHl]; intros Sub; [left; exists []; split; [reflexivity|intros []]|].
          rewrite Forall_forall in IH. destruct (IH x (Sub x (or_introl eq_refl))) as [S1 S2].
          assert (D : (exists c, candidates k x = Ok c /\ (x = y -> c <> [])) \/ candidates k x = Err GenericException).
          { destruct (candidates k x) as [c|e] eqn:Ec.
            - left. exists c. split; [reflexivity|]. intros -> ->. 
              assert (Sy : seen k y). { left. destruct y as [i b d s a|m]; [|cbn in Ez; discriminate]. cbn [instance] in Ez. cbn [mentions]. left. apply Same_sym. exact Ez. }
              destruct (S1 Sy) as [(? & ? & E')|E']; discriminate.
            - right. destruct e; try reflexivity; exfalso;
              (assert (NS : ~ seen k x) by (intros Sx; destruct (S1 Sx) as [(? & ? & E')|E']; discriminate)); specialize (S2 NS); discriminate. }
          cbn [candidates_of]. fold (candidates_of k). destruct D as [(c & -> & Hc)| ->]; [|right; reflexivity]. cbn [bind].
          destruct (IHl (fun z Iz => Sub z (or_intror Iz))) as [(r & -> & Hr)| ->]; [|right; reflexivity]. cbn [bind]. left. exists (c ++ r). split; [reflexivity|].
          intros [->|I]; [specialize (Hc eq_refl); destruct c; [contradiction|discriminate]|]. specialize (Hr I). destruct c; [exact Hr|discriminate]. }
        destruct (G ms (fun _ I => I)) as [(c & Ec & Hc)|Ee]; [left|right; exact Ee]. specialize (Hc Iy). destruct c as [|w c]; [contradiction|]. exists w, c. exact Ec. }
      destruct A as [(w & c & ->)| ->]; cbn [bind]; [|right; reflexivity]. destruct c; cbn; [left; eexists; eexists; reflexivity|right; reflexivity].
    + split; intros H; [|reflexivity]. exfalso. destruct H as [[]|(m & y & Em & I & S)]. injection Em as <-.
      assert (M : mem (Int k) (map instance ms) = true); [|congruence]. apply mem_iff. exists (instance y). split; [apply in_map; exact I|apply Same_sym; exact S].
Qed.
Lemma candidates_err k x e : candidates k (x : node) = Err e -> e = GenericException.
Proof.
  intros H. destruct (candidates_seen k x) as [S1 S2]. rewrite H in S1, S2.
  destruct e; try reflexivity; exfalso; (assert (NS : ~ seen k x) by (intros Sx; destruct (S1 Sx) as [(? & ? & E')|E']; discriminate)); specialize (S2 NS); discriminate.
Qed.
Lemma candidates_of_err k (ms : list node) e : candidates_of k ms = Err e -> e = GenericException.
Proof.
  induction ms as [|x ms IH]; [discriminate|]. cbn [candidates_of]. fold (candidates_of k). destruct (candidates k x) as [c|e'] eqn:E; cbn [bind].
  - destruct (candidates_of k ms); [discriminate|]. cbn [bind]. intros [= ->]. apply IH. reflexivity.
  - intros [= ->]. eapply candidates_err. exact E.
Qed.
Lemma candidates_of_nil k (ms : list node) : candidates_of k ms = Ok [] <-> forall x, In x ms -> ~ seen k x.
Proof.
  induction ms as [|x ms IH]; [split; [intros _ ? []|reflexivity]|]. cbn [candidates_of]. fold (candidates_of k). destruct (candidates_seen k x) as [S1 S2]. split.
  - destruct (candidates k x) as [c|] eqn:E; [|discriminate]. cbn [bind]. destruct (candidates_of k ms) as [r|]; [|discriminate]. intros [= H]. apply app_eq_nil in H. destruct H as [-> ->].
    intros y [<-|I]; [|apply IH; [reflexivity|exact I]]. intros Sy. destruct (S1 Sy) as [(? & ? & E')|E']; discriminate.
  - intros N. rewrite (S2 (N x (or_introl eq_refl))). cbn [bind]. rewrite (proj2 IH); [reflexivity|]. intros y I. apply N. right. exact I.
Qed.

Lemma by_number (ms : list node) k :
  (forall r, getitem ms (Int k) = Ok r -> exists x, r = One x /\ In x (concat (map leaves ms)) /\ mentions k x) /\
  (getitem ms (Int k) = Err KeyError <-> forall x, In x ms -> ~ seen k x) /\
  (forall e, getitem ms (Int k) = Err e -> e = KeyError \/ e = GenericException).
Proof.
  cbn [ItemModel.getitem]. rewrite get_int_of. split; [|split].
  - intros r. destruct (candidates_of k ms) as [c|] eqn:E; [|discriminate]. cbn [bind]. destruct c as [|x [|? ?]]; try discriminate. intros [= <-]. exists x. split; [reflexivity|].
    assert (A : Forall (fun y => In y (leaves (Grp ms)) /\ mentions k y) [x]).
    { revert E. generalize [x]. induction ms as [|y ms IH]; intros c E; [injection E as <-; constructor|]. cbn [candidates_of] in E. fold (candidates_of k) in E. pose proof (candidates_sound k y) as Sy. destruct (candidates k y) as [cy|]; [|discriminate]. cbn [bind] in E.
      destruct (candidates_of k ms) as [r|] eqn:Er; [|discriminate]. injection E as <-. cbn [leaves map concat] in *. apply Forall_app. split.
      - eapply Forall_impl; [|apply Sy; reflexivity]. intros z [I M]. split; [apply in_or_app; left; exact I|exact M].
      - eapply Forall_impl; [|apply IH; reflexivity]. intros z [I M]. split; [apply in_or_app; right; exact I|exact M]. }
    apply Forall_inv in A. exact A.
  - rewrite <- candidates_of_nil. destruct (candidates_of k ms) as [c|e] eqn:E; cbn [bind].
    + destruct c as [|x [|y c]]; cbn; split; try discriminate; reflexivity.
    + apply candidates_of_err in E. subst. split; discriminate.
  - intros e. destruct (candidates_of k ms) as [c|e'] eqn:E; cbn [bind].
    + destruct c as [|x [|y c]]; cbn; intros [= <-]; [left|right]; reflexivity.
    + apply candidates_of_err in E. subst. intros [= <-]. right. reflexivity.
Qed.

(** When groups are not nested twice, every meter of the group is seen. *)
Notation hits k l := (filter (has_number k) l).
Lemma candidates_shallow k (x : node) : shallow x -> Forall numbered (leaves x) ->
  candidates k x = Ok (hits k (leaves x)) \/ candidates k x = Err GenericException /\ (2 <= length (hits k (leaves x)))%nat.
Proof.
  destruct x as [i b d s a|ms]; intros Sh Nu.
  - left. apply Forall_inv in Nu. destruct i as [n| | | | | | | |]; try destruct Nu. cbn [candidates leaves filter has_number]. unfold py_eq. cbn [norm eqb_raw]. reflexivity.
  - assert (L : leaves (Grp ms) = ms). { cbn [leaves]. clear Nu. cbn [shallow] in Sh. induction Sh as [|x ms Hx _ IH]; [reflexivity|]. destruct x; [|discriminate]. cbn [map concat leaves]. rewrite IH. reflexivity. }
    rewrite L in *. rewrite candidates_grp.
    assert (C : candidates_of k ms = Ok (hits k ms)).
    { clear L. cbn [shallow] in Sh. revert Nu. induction Sh as [|x ms Hx _ IH]; intros Nu; [reflexivity|]. apply Forall_cons_iff in Nu. destruct Nu as [N1 N2]. destruct x as [i b d s a|]; [|discriminate]. destruct i as [n| | | | | | | |]; try destruct N1.
      cbn [candidates_of]. fold (candidates_of k). rewrite (IH N2). cbn [candidates bind filter has_number]. unfold py_eq. cbn [norm eqb_raw]. destruct (n =? k); reflexivity. }
    assert (M : mem (Int k) (map instance ms) = match hits k ms with [] => false | _ => true end).
    { clear L C. cbn [shallow] in Sh. revert Nu. induction Sh as [|x ms Hx _ IH]; intros Nu; [reflexivity|]. apply Forall_cons_iff in Nu. destruct Nu as [N1 N2]. destruct x as [i b d s a|]; [|discriminate]. destruct i as [n| | | | | | | |]; try destruct N1.
      cbn [map instance mem existsb filter has_number]. fold (mem (Int k) (map instance ms)). rewrite (IH N2). unfold py_eq. cbn [norm eqb_raw]. rewrite Z.eqb_sym. destruct (n =? k); reflexivity. }
    rewrite M, C. destruct (hits k ms) as [|y [|z l]]; cbn [bind exactly_one]; [left; reflexivity|left; reflexivity|right]. split; [reflexivity|cbn; lia].
Qed.
Lemma by_number_shallow (ms : list node) k : Forall shallow ms -> Forall numbered (concat (map leaves ms)) ->
  getitem ms (Int k) =
    match hits k (concat (map leaves ms)) with [] => Err KeyError | [x] => Ok (One x) | _ => Err GenericException end.
Proof.
  intros Sh Nu. cbn [ItemModel.getitem]. rewrite get_int_of.
  assert (C : candidates_of k ms = Ok (hits k (concat (map leaves ms))) \/ candidates_of k ms = Err GenericException /\ (2 <= length (hits k (concat (map leaves ms))))%nat).
  { revert Nu. induction Sh as [|x ms Hx _ IH]; intros Nu; [left; reflexivity|]. cbn [map concat] in *. apply Forall_app in Nu. destruct Nu as [N1 N2].
    cbn [candidates_of]. fold (candidates_of k). rewrite filter_app, app_length. destruct (candidates_shallow k x Hx N1) as [-> |[-> G]]; cbn [bind]; [|right; split; [reflexivity|lia]].
    destruct (IH N2) as [-> |[-> G]]; cbn [bind]; [left; reflexivity|right; split; [reflexivity|lia]]. }
  destruct C as [-> |[-> G]]; cbn [bind].
  - destruct (hits k (concat (map leaves ms))) as [|x [|y l]]; reflexivity.
  - destruct (hits k (concat (map leaves ms))) as [|x [|y l]]; cbn in G; try lia. reflexivity.
Qed.

(** ** By appliance *)
Lemma appliances_in (x : node) a : (forall l a, In a (order l) <-> In a l) -> In a (appliances order x) <-> attached a x.
Proof.
  intros Ho. unfold attached. induction x as [i b d s ap|ms IH] using node_ind2; cbn [appliances leaves].
  - split.
    + intros I. exists i, b, d, s, ap. split; [left; reflexivity|exact I].
    + intros (i' & b' & d' & s' & ap' & [E|[]] & I). congruence.
  - rewrite Ho, in_concat. rewrite Forall_forall in IH. split.
    + intros (l & Il & Ia). apply in_map_iff in Il. destruct Il as (y & <- & Iy). apply IH in Ia; [|exact Iy]. destruct Ia as (i & b & d & s & ap & I1 & I2). exists i, b, d, s, ap. split; [|exact I2]. apply in_concat. exists (leaves y). split; [apply in_map; exact Iy|exact I1].
    + intros (i & b & d & s & ap & I1 & I2). apply in_concat in I1. destruct I1 as (l & Il & I1). apply in_map_iff in Il. destruct Il as (y & <- & Iy). exists (appliances order y). split; [apply in_map; exact Iy|]. apply IH; [exact Iy|]. exists i, b, d, s, ap. split; assumption.
Qed.
Lemma first_match_ok (f : app -> res bool) l : (forall a, In a l -> exists b, f a = Ok b) -> exists b, first_match f l = Ok b /\ (b = true <-> exists a, In a l /\ f a = Ok true).
Proof.
  induction l as [|a l IH]; intros H.
  - exists false. split; [reflexivity|]. split; [discriminate|]. intros (a & [] & _).
  - destruct (H a (or_introl eq_refl)) as [b E]. cbn [first_match]. rewrite E. cbn [bind]. destruct b.
    + exists true. split; [reflexivity|]. split; [|reflexivity]. intros _. exists a. split; [left; reflexivity|exact E].
    + destruct (IH (fun x I => H x (or_intror I))) as (b & Eb & Hb). exists b. split; [exact Eb|]. rewrite Hb. split.
      * intros (x & I & Ex). exists x. split; [right; exact I|exact Ex].
      * intros (x & [<-|I] & Ex); [congruence|]. exists x. split; assumption.
Qed.
Lemma first_match_err (f : app -> res bool) l e : first_match f l = Err e -> exists a, In a l /\ f a = Err e.
Proof.
  induction l as [|a l IH]; [discriminate|]. cbn [first_match]. destruct (f a) as [b|e'] eqn:E; cbn [bind].
  - destruct b; [discriminate|]. intros H. destruct (IH H) as (x & I & Ex). exists x. split; [right; exact I|exact Ex].
  - intros [= ->]. exists a. split; [left; reflexivity|exact E].
Qed.
Lemma getitem_described ms key q : described key = Some q -> getitem ms key = get_dict matches order ms q.
Proof.
  destruct key as [n|b|s|l|l|d|i b d|l|n]; cbn [described]; try discriminate.
  - intros [= <-]. reflexivity.
  - destruct l as [|x [|y [|z l]]]; try (destruct x; discriminate); try discriminate. destruct x; try discriminate. intros [= <-]. reflexivity.
  - intros [= <-]. reflexivity.
Qed.
Lemma by_appliance ms key q l : (forall l a, In a (order l) <-> In a l) -> described key = Some q ->
  (forall x a, In x ms -> attached a x -> exists b, matches a q = Ok b) -> Filtered (feeds matches q) ms l ->
  getitem ms key = match l with [] => Err KeyError | [x] => Ok (One x) | _ => Err GenericException end.
Proof.
  intros Ho D M F. rewrite (getitem_described _ _ _ D). unfold get_dict.
  assert (E : filterM (fun x => first_match (fun a => matches a q) (appliances order x)) ms = Ok l).
  { clear D. assert (T : forall x, In x ms -> exists b, first_match (fun a => matches a q) (appliances order x) = Ok b /\ (b = true <-> feeds matches q x)).
    { intros x I. destruct (first_match_ok (fun a => matches a q) (appliances order x)) as (b & Eb & Hb).
      - intros a Ia. apply (M x a I). apply appliances_in; assumption.
      - exists b. split; [exact Eb|]. rewrite Hb. unfold feeds. split; intros (a & Ia & Ea); exists a; (split; [apply appliances_in; assumption|exact Ea]). }
    clear M. induction F as [|x ms l Px F IH|x ms l Nx F IH]; [reflexivity| |]; cbn [filterM]; destruct (T x (or_introl eq_refl)) as (b & -> & Hb); cbn [bind]; rewrite (IH (fun y I => T y (or_intror I))); cbn [bind].
    - rewrite (proj2 Hb Px). reflexivity.
    - destruct b; [exfalso; apply Nx, Hb; reflexivity|reflexivity]. }
  rewrite E. cbn [bind]. destruct l as [|x [|y l]]; reflexivity.
Qed.
Lemma filterM_err (f : node -> res bool) l e : filterM f l = Err e -> exists x, In x l /\ f x = Err e.
Proof.
  induction l as [|x l IH]; [discriminate|]. cbn [filterM]. destruct (f x) eqn:E; cbn [bind].
  - destruct (filterM f l); [discriminate|]. cbn [bind]. intros [= ->]. destruct (IH eq_refl) as (y & I & Ey). exists y. split; [right; exact I|exact Ey].
  - intros [= ->]. exists x. split; [left; reflexivity|exact E].
Qed.
Lemma by_appliance_err ms key q e : (forall l a, In a (order l) <-> In a l) -> described key = Some q -> getitem ms key = Err e ->
  e = KeyError \/ e = GenericException \/ exists x a, In x ms /\ attached a x /\ matches a q = Err e.
Proof.
  intros Ho D. rewrite (getitem_described _ _ _ D). unfold get_dict. destruct (filterM _ ms) as [l|e'] eqn:E; cbn [bind].
  - destruct l as [|x [|y l]]; cbn; intros [= <-]; auto.
  - intros [= ->]. right. right. apply filterM_err in E. destruct E as (x & I & Ex). apply first_match_err in Ex. destruct Ex as (a & Ia & Ea). exists x, a. split; [exact I|]. split; [apply appliances_in; assumption|exact Ea].
Qed.

(** ** Pairs and malformed keys *)
Lemma by_pair ms k1 k2 : (forall s, k1 <> Str s) ->
  (forall x y, getitem ms (Tup [k1; k2]) = Ok (New [x; y]) <-> getitem ms k1 = Ok x /\ getitem ms k2 = Ok y) /\
  (forall e, getitem ms (Tup [k1; k2]) = Err e <-> getitem ms k1 = Err e \/ (exists x, getitem ms k1 = Ok x) /\ getitem ms k2 = Err e) /\
  (forall r, getitem ms (Tup [k1; k2]) = Ok r -> exists x y, r = New [x; y]).
Proof.
  intros N. assert (E : getitem ms (Tup [k1; k2]) = (do x <- getitem ms k1; do y <- getitem ms k2; Ok (New [x; y]))) by (destruct k1; try reflexivity; exfalso; eapply N; reflexivity).
  rewrite E. destruct (getitem ms k1) as [x|e1]; cbn [bind]; [destruct (getitem ms k2) as [y|e2]; cbn [bind]|].
  - split; [|split].
    + intros x' y'. split; [intros [= <- <-]; split; reflexivity|intros [[= <-] [= <-]]; reflexivity].
    + intros e. split; [discriminate|]. intros [H|[_ H]]; discriminate.
    + intros r [= <-]. exists x, y. reflexivity.
  - split; [|split; [|discriminate]].
    + intros x' y'. split; [discriminate|intros [_ H]; discriminate].
    + intros e. split; [intros [= ->]; right; split; [exists x; reflexivity|reflexivity]|]. intros [H|[_ H]]; [discriminate|exact H].
  - split; [|split; [|discriminate]].
    + intros x' y'. split; [discriminate|intros [H _]; discriminate].
    + intros e. split; [intros [= ->]; left; reflexivity|]. intros [H|[(x & H) _]]; [exact H|discriminate].
Qed.
Lemma first_such_err (p : node -> bool) l e : first_such p l = Err e -> e = KeyError.
Proof. unfold first_such. destruct (find p l); [discriminate|]. intros [= <-]. reflexivity. Qed.
Lemma get_id_err (ms : list node) i b d e : get_id ms i b d = Err e -> e = KeyError \/ e = RuntimeError.
Proof.
  unfold get_id. destruct i;
  try (destruct (py_eq _ (Int 0)); [unfold mains_of; destruct (filter (in_place b d) ms); [intros [= <-]; left; reflexivity|]; destruct (simplest _); [discriminate|discriminate|]; intros [= <-]; right; reflexivity|intros H; left; eapply first_such_err; exact H]).
  destruct (find _ (filter is_group ms)); [discriminate|]. intros H. left. eapply first_such_err. exact H.
Qed.
Lemma type_errors ms key : (forall l a, In a (order l) <-> In a l) -> (forall a q, matches a q <> Err TypeError) -> (forall k1 k2, key = Tup [k1; k2] -> exists s, k1 = Str s) ->
  getitem ms key = Err TypeError <-> malformed key.
Proof.
  intros Ho Hm NP.
  assert (DD : forall q, get_dict matches order ms q <> Err TypeError).
  { intros q H. destruct (by_appliance_err ms (Dict q) q TypeError Ho eq_refl H) as [?|[?|(x & a & _ & _ & E)]]; try discriminate. apply (Hm a q E). }
  assert (II : forall i b d, get_id ms i b d <> Err TypeError) by (intros i b d H; apply get_id_err in H; destruct H; discriminate).
  assert (FF : forall (p : node -> bool) l, first_such p l <> Err TypeError) by (intros p l H; apply first_such_err in H; discriminate).
  destruct key as [n|b|s|l|l|d|i b d|l|n]; cbn [ItemModel.getitem malformed].
  - split; [|intros []]. intros H. destruct (by_number ms n) as (_ & _ & E). destruct (E TypeError H); discriminate.
  - split; [intros _; exact I|reflexivity].
  - split; [intros H; elim (DD _ H)|intros []].
  - destruct l as [|x [|y [|z [|w l]]]]; cbn [length].
    + split; [intros _; split; discriminate|reflexivity].
    + split; [intros _; split; discriminate|destruct x; reflexivity].
    + destruct (NP x y eq_refl) as [s ->]. split; [intros H; elim (DD _ H)|intros [H _]; contradiction].
    + split; [intros H; exfalso; destruct x; exact (II _ _ _ H)|intros [_ H]; contradiction].
    + split; [intros _; split; discriminate|destruct x; reflexivity].
  - unfold get_list. destruct (forallb is_tuple l) eqn:E.
    + split; [intros H; elim (FF _ _ H)|]. intros (x & I & Ex). rewrite forallb_forall in E. rewrite (E x I) in Ex. discriminate.
    + split; [|reflexivity]. intros _. clear - E. induction l as [|x l IH]; [discriminate|]. cbn in E. destruct (is_tuple x) eqn:Ex; [|exists x; split; [left; reflexivity|exact Ex]].
      destruct (IH E) as (y & I & Ey). exists y. split; [right; exact I|exact Ey].
  - split; [intros H; elim (DD _ H)|intros []].
  - split; [intros H; elim (II _ _ _ H)|intros []].
  - split; [intros H; elim (FF _ _ H)|intros []].
  - split; [intros _; exact I|reflexivity].
Qed.

(** ** In bulk *)
Notation assemble := (assemble matches order).
Notation from_list := (from_list matches order).
Notation onto := (from_list_onto matches order).
Definition run_of (ms : list node) : list obj -> list obj -> res (list (found app)) :=
  fix run (seen : list obj) (l : list obj) : res (list (found app)) :=
    match l with
    | [] => Ok []
    | y :: l' =>
        if mem y seen then run seen l'
        else do m <- assemble ms y; do r <- run (y :: seen) l'; Ok (m :: r)
    end.
Lemma run_of_onto ms l : forall sn, run_of ms sn l = onto ms sn l.
Proof. induction l as [|y l IH]; intros sn; [reflexivity|]. cbn [run_of from_list_onto]. fold (run_of ms). rewrite !IH. reflexivity. Qed.
Lemma assemble_group ms l : assemble ms (GroupID l) = match getitem ms (GroupID l) with Err KeyError => (do r <- onto ms [] l; Ok (New r)) | r => r end.
Proof. rewrite <- run_of_onto. reflexivity. Qed.

(** Identifiers of meters and groups. *)
Inductive idlike : obj -> Prop :=
  | Id_meter i b d : idlike (MeterID i b d)
  | Id_group l : Forall idlike l -> idlike (GroupID l).
Lemma ordinary_idlike x : ordinary x -> idlike x.
Proof.
  induction x as [n|b|s|l IH|l IH|d IH|i b d Hi Hb Hd|l IH|n] using obj_ind2; intros H; inversion H; subst; constructor.
  rewrite Forall_forall in *. intros y I. apply IH; auto.
Qed.
Lemma ident_idlike (x : node) : idlike (ident x).
Proof. induction x as [i b d s a|ms IH] using node_ind2; cbn [ident]; constructor. apply Forall_forall. intros y I. apply in_map_iff in I. destruct I as (z & <- & I). rewrite Forall_forall in IH. apply IH, I. Qed.
Lemma asked_ident (x : node) : asked (ident x) = map ident (leaves x).
Proof.
  induction x as [i b d s a|ms IH] using node_ind2; [reflexivity|]. cbn [ident asked leaves]. rewrite map_map, concat_map, map_map. f_equal. apply map_ext_in. intros y I. rewrite Forall_forall in IH. apply IH, I.
Qed.
Lemma asked_same x y : idlike x -> idlike y -> Same x y -> SameSet (asked x) (asked y).
Proof.
  revert y. induction x as [n|b|s|l IH|l IH|d IH|i b d Hi Hb Hd|l IH|n] using obj_ind2; intros y Hx Hy; inversion Hx; subst; inversion Hy as [i' b' d' E|l' F E]; subst; intros S; unfold Same in S; cbn in S; try discriminate.
  - cbn [asked]. intros z. unfold Member. split; intros (w & [<-|[]] & E); eexists; (split; [left; reflexivity|]); (eapply Same_trans; [exact E|]); unfold Same; cbn; congruence.
  - injection S as S. cbn [asked]. match goal with H : Forall idlike l |- _ => rename H into Fl end. clear Hx Hy. revert l' F S. induction IH as [|x l Hx _ IHl]; intros [|y l'] F S; try discriminate; [apply SameSet_refl|].
    cbn [map] in S. injection S as S1 S2. apply Forall_cons_iff in Fl, F. destruct Fl as [Fx Fl], F as [Fy F].
    specialize (IHl Fl l' F S2). specialize (Hx y Fx Fy S1). cbn [map concat]. intros z. specialize (IHl z). specialize (Hx z).
    assert (A : forall l1 l2, Member z (l1 ++ l2) <-> Member z l1 \/ Member z l2).
    { intros l1 l2. unfold Member. split.
      - intros (w & I & E). apply in_app_or in I. destruct I as [I|I]; [left|right]; exists w; split; assumption.
      - intros [(w & I & E)|(w & I & E)]; exists w; (split; [apply in_or_app; auto|exact E]). }
    rewrite !A, IHl, Hx. reflexivity.
Qed.
Lemma Member_app z l1 l2 : Member z (l1 ++ l2) <-> Member z l1 \/ Member z l2.
Proof.
  unfold Member. split.
  - intros (w & I & E). apply in_app_or in I. destruct I as [I|I]; [left|right]; exists w; split; assumption.
  - intros [(w & I & E)|(w & I & E)]; exists w; (split; [apply in_or_app; auto|exact E]).
Qed.
Lemma Member_concat z l : Member z (concat (map asked l)) <-> exists x, In x l /\ Member z (asked x).
Proof.
  unfold Member. split.
  - intros (w & I & E). apply in_concat in I. destruct I as (k & Ik & Iw). apply in_map_iff in Ik. destruct Ik as (x & <- & Ix). exists x. split; [exact Ix|]. exists w. split; assumption.
  - intros (x & Ix & w & Iw & E). exists w. split; [|exact E]. apply in_concat. exists (asked x). split; [apply in_map; exact Ix|exact Iw].
Qed.
Lemma asked_set l l' : Forall idlike l -> Forall idlike l' -> SameSet l l' -> SameSet (concat (map asked l)) (concat (map asked l')).
Proof.
  assert (half : forall l l', Forall idlike l -> Forall idlike l' -> SameSet l l' -> forall z, Member z (concat (map asked l)) -> Member z (concat (map asked l'))).
  { clear l l'. intros l l' Fl Fl' S z M. apply Member_concat in M. destruct M as (x & Ix & Mx). destruct (proj1 (S x) (Member_in x l Ix)) as (y & Iy & Sxy).
    apply Member_concat. exists y. split; [exact Iy|]. rewrite Forall_forall in Fl, Fl'. apply (asked_same x y (Fl x Ix) (Fl' y Iy) Sxy). exact Mx. }
  intros Fl Fl' S z. split; apply half; try assumption. intros w. symmetry. apply S.
Qed.

Lemma onto_sound ms l : Forall ordinary l -> Forall (fun x => forall f, assemble ms x = Ok f -> SameSet (delivered f) (asked x)) l ->
  forall sn r, Forall ordinary sn -> onto ms sn l = Ok r -> SameSet (concat (map delivered r) ++ concat (map asked sn)) (concat (map asked l) ++ concat (map asked sn)).
Proof.
  intros Fl IH. induction l as [|x l IHl]; intros sn r Fs H.
  - cbn in H. injection H as <-. apply SameSet_refl.
  - apply Forall_cons_iff in Fl. destruct Fl as [Fx Fl]. apply Forall_cons_iff in IH. destruct IH as [Hx IH]. cbn [from_list_onto] in H. destruct (mem x sn) eqn:E.
    + specialize (IHl Fl IH sn r Fs H). intros z. rewrite (IHl z). cbn [map concat]. rewrite !Member_app.
      apply mem_iff in E. destruct E as (y & Iy & Sxy). rewrite Forall_forall in Fs.
      assert (A : Member z (asked x) -> Member z (concat (map asked sn))).
      { intros M. apply Member_concat. exists y. split; [exact Iy|]. apply (asked_same x y (ordinary_idlike _ Fx) (ordinary_idlike _ (Fs y Iy)) Sxy). exact M. }
      tauto.
    + destruct (assemble ms x) as [f|] eqn:Ef; [|discriminate]. cbn [bind] in H. destruct (onto ms (x :: sn) l) as [r'|] eqn:Er; [|discriminate]. injection H as <-.
      specialize (IHl Fl IH (x :: sn) r' (Forall_cons _ Fx Fs) Er). specialize (Hx f eq_refl). intros z. specialize (IHl z). specialize (Hx z). cbn [map concat] in *. rewrite !Member_app in *. tauto.
Qed.
Lemma assemble_sound ms x : ordinary x -> forall f, assemble ms x = Ok f -> SameSet (delivered f) (asked x).
Proof.
  induction x as [n|b|s|l IH|l IH|d IH|i b d Hi Hb Hd|l IH|n] using obj_ind2; intros O f H; inversion O as [n' b' d' Nz E|l' F E]; subst.
  - change (getitem ms (MeterID (Int n') b d) = Ok f) in H.
    destruct (by_id matches order ms (Int n') b d) as (R & _); [discriminate|unfold Same; cbn; congruence|]. apply R in H. destruct H as (x & -> & Fx). apply First_in in Fx. destruct Fx as [_ Sx].
    cbn [delivered]. rewrite <- asked_ident. apply asked_same; [apply ident_idlike|constructor|exact Sx].
  - rewrite assemble_group in H. destruct (by_ids matches order ms l) as (R & _ & KE). destruct (getitem ms (GroupID l)) as [g|e].
    + injection H as <-. destruct (proj1 (R g) eq_refl) as (g' & -> & Fg). apply First_in in Fg. destruct Fg as (_ & m & -> & Sm). cbn [delivered]. rewrite <- asked_ident. cbn [ident asked]. apply asked_set; [| |exact Sm].
      * apply Forall_forall. intros y I. apply in_map_iff in I. destruct I as (z & <- & _). apply ident_idlike.
      * eapply Forall_impl; [|exact F]. intros y. apply ordinary_idlike.
    + rewrite (KE e eq_refl) in H. destruct (onto ms [] l) as [r|] eqn:Er; [|discriminate]. injection H as <-. cbn [delivered asked].
      assert (G : Forall (fun x => forall f, assemble ms x = Ok f -> SameSet (delivered f) (asked x)) l).
      { rewrite Forall_forall in *. intros y I. apply IH; [exact I|]. apply F, I. }
      pose proof (onto_sound ms l F G [] r (Forall_nil _) Er) as P. cbn [map concat] in P. rewrite !app_nil_r in P. exact P.
Qed.
Lemma from_list_sound ms l f : Forall ordinary l -> from_list ms l = Ok f -> SameSet (delivered f) (concat (map asked l)).
Proof.
  intros F H. unfold ItemModel.from_list in H. destruct (onto ms [] l) as [r|] eqn:E; [|discriminate]. injection H as <-. cbn [delivered].
  assert (G : Forall (fun x => forall f, assemble ms x = Ok f -> SameSet (delivered f) (asked x)) l) by (eapply Forall_impl; [|exact F]; intros y; apply assemble_sound).
  pose proof (onto_sound ms l F G [] r (Forall_nil _) E) as P. cbn [map concat] in P. rewrite !app_nil_r in P. exact P.
Qed.

Lemma onto_total ms l : Forall (fun x => exists f, assemble ms x = Ok f) l -> forall sn, exists r, onto ms sn l = Ok r.
Proof.
  induction 1 as [|x l (f & E) _ IH]; intros sn; [exists []; reflexivity|]. cbn [from_list_onto]. destruct (mem x sn); [apply IH|]. rewrite E. cbn [bind]. destruct (IH (x :: sn)) as [r ->]. exists (f :: r). reflexivity.
Qed.
Lemma assemble_total ms x : ordinary x -> (forall z, In z (asked x) -> Member z (map ident ms)) -> exists f, assemble ms x = Ok f.
Proof.
  induction x as [n|b|s|l IH|l IH|d IH|i b d Hi Hb Hd|l IH|n] using obj_ind2; intros O M; inversion O as [n' b' d' Nz E|l' F E]; subst.
  - change (exists f, getitem ms (MeterID (Int n') b d) = Ok f).
    destruct (by_id matches order ms (Int n') b d) as (_ & K & KE); [discriminate|unfold Same; cbn; congruence|]. destruct (getitem ms (MeterID (Int n') b d)) as [f|e]; [exists f; reflexivity|]. exfalso. rewrite (KE e eq_refl) in K. 
    destruct (M _ (or_introl eq_refl)) as (y & Iy & S). apply in_map_iff in Iy. destruct Iy as (x & <- & Ix). apply (proj1 K eq_refl x Ix). apply Same_sym. exact S.
  - rewrite assemble_group. destruct (by_ids matches order ms l) as (_ & _ & KE). destruct (getitem ms (GroupID l)) as [g|e]; [exists g; reflexivity|]. rewrite (KE e eq_refl).
    destruct (onto_total ms l) with (sn := @nil obj) as [r Er]; [|rewrite Er; eexists; reflexivity].
    rewrite Forall_forall in *. intros y I. apply IH; [exact I|apply F, I|]. intros z Iz. apply M. cbn [asked]. apply in_concat. exists (asked y). split; [apply in_map; exact I|exact Iz].
Qed.
Lemma from_list_total ms l : Forall ordinary l -> (forall z, In z (concat (map asked l)) -> Member z (map ident ms)) -> exists f, from_list ms l = Ok f.
Proof.
  intros F M. unfold ItemModel.from_list. destruct (onto_total ms l) with (sn := @nil obj) as [r Er]; [|rewrite Er; eexists; reflexivity].
  rewrite Forall_forall in *. intros y I. apply assemble_total; [apply F, I|]. intros z Iz. apply M. apply in_concat. exists (asked y). split; [apply in_map; exact I|exact Iz].
Qed.
Lemma onto_err ms l : Forall (fun x => forall e, assemble ms x = Err e -> e = KeyError) l -> forall sn e, onto ms sn l = Err e -> e = KeyError.
Proof.
  induction 1 as [|x l E _ IH]; intros sn e H; [discriminate|]. cbn [from_list_onto] in H. destruct (mem x sn); [eapply IH; exact H|]. destruct (assemble ms x) as [f|e']; cbn [bind] in H.
  - destruct (onto ms (x :: sn) l) eqn:Er; [discriminate|]. injection H as ->. eapply IH. exact Er.
  - injection H as ->. apply E. reflexivity.
Qed.
Lemma assemble_err ms x : ordinary x -> forall e, assemble ms x = Err e -> e = KeyError.
Proof.
  induction x as [n|b|s|l IH|l IH|d IH|i b d Hi Hb Hd|l IH|n] using obj_ind2; intros O e H; inversion O as [n' b' d' Nz E|l' F E]; subst.
  - change (getitem ms (MeterID (Int n') b d) = Err e) in H. destruct (by_id matches order ms (Int n') b d) as (_ & _ & KE); [discriminate|unfold Same; cbn; congruence|]. apply KE. exact H.
  - rewrite assemble_group in H. destruct (by_ids matches order ms l) as (_ & _ & KE). destruct (getitem ms (GroupID l)) as [g|e']; [discriminate|]. rewrite (KE e' eq_refl) in H.
    destruct (onto ms [] l) as [r|e''] eqn:Er; [discriminate|]. injection H as <-. eapply onto_err; [|exact Er]. rewrite Forall_forall in *. intros y I. apply IH; [exact I|apply F, I].
Qed.
Lemma from_list_err ms l e : Forall ordinary l -> from_list ms l = Err e -> e = KeyError.
Proof.
  intros F H. unfold ItemModel.from_list in H. destruct (onto ms [] l) as [r|e'] eqn:E; [discriminate|]. injection H as <-. eapply onto_err; [|exact E]. eapply Forall_impl; [|exact F]. intros y. apply assemble_err.
Qed.

(** Asking for the identifiers of a group gives back its members. *)
Lemma round_trip_onto ms : forall l1 l2, ms = l1 ++ l2 -> Forall (fun x => ordinary (ident x)) ms ->
  (forall k1 x k2, ms = k1 ++ x :: k2 -> forall y, In y k1 -> ~ Same (ident x) (ident y) /\ forall m, x = Grp m -> ~ group_of_ids (map ident m) y) ->
  onto ms (map ident (rev l1)) (map ident l2) = Ok (map One l2).
Proof.
  intros l1 l2 E F D. revert l1 E. induction l2 as [|x l2 IH]; intros l1 E; [reflexivity|]. cbn [map from_list_onto].
  assert (NM : mem (ident x) (map ident (rev l1)) = false).
  { destruct (mem _ _) eqn:M; [|reflexivity]. exfalso. apply mem_iff in M. destruct M as (z & Iz & Sz). apply in_map_iff in Iz. destruct Iz as (y & <- & Iy). apply in_rev in Iy. apply (D l1 x l2 E y Iy). exact Sz. }
  rewrite NM. assert (Ox : ordinary (ident x)) by (rewrite Forall_forall in F; apply F; rewrite E; apply in_or_app; right; left; reflexivity).
  assert (A : assemble ms (ident x) = Ok (One x)).
  { destruct x as [i b d s a|m]; cbn [ident] in *.
    - inversion Ox as [n b' d' Nz Ei|]; subst i. change (getitem ms (MeterID (Int n) b d) = Ok (One (Meter (Int n) b d s a))).
      destruct (by_id matches order ms (Int n) b d) as (R & _); [discriminate|unfold Same; cbn; congruence|]. apply R. eexists. split; [reflexivity|]. exists l1, l2. split; [exact E|]. split; [apply Same_refl|]. intros y Iy S. apply (D _ _ _ E y Iy). apply Same_sym. exact S.
    - rewrite assemble_group. destruct (by_ids matches order ms (map ident m)) as (R & _). assert (G : getitem ms (GroupID (map ident m)) = Ok (One (Grp m))); [|rewrite G; reflexivity].
      apply R. eexists. split; [reflexivity|]. exists l1, l2. split; [exact E|]. split; [exists m; split; [reflexivity|apply SameSet_refl]|]. intros y Iy. apply (D _ _ _ E y Iy). reflexivity. }
  rewrite A. cbn [bind]. specialize (IH (l1 ++ [x])). rewrite rev_app_distr in IH. cbn [rev List.app map] in IH. rewrite IH; [reflexivity|]. rewrite <- app_assoc. exact E.
Qed.
Lemma round_trip ms : Forall (fun x => ordinary (ident x)) ms ->
  (forall k1 x k2, ms = k1 ++ x :: k2 -> forall y, In y k1 -> ~ Same (ident x) (ident y) /\ forall m, x = Grp m -> ~ group_of_ids (map ident m) y) ->
  from_list ms (map ident ms) = Ok (New (map One ms)).
Proof. intros F D. unfold ItemModel.from_list. pose proof (round_trip_onto ms [] ms eq_refl F D) as R. cbn [rev map] in R. rewrite R. reflexivity. Qed.

Lemma onto_repeat ms l x l' : forall sn, Member x (l ++ sn) -> onto ms sn (l ++ x :: l') = onto ms sn (l ++ l').
Proof.
  induction l as [|y l IH]; intros sn M; cbn [List.app from_list_onto].
  - cbn [List.app] in M. apply mem_iff in M. rewrite M. reflexivity.
  - cbn [List.app] in M. destruct (mem y sn) eqn:E.
    + apply IH. destruct M as (z & [->|I] & S); [|exists z; split; assumption]. apply mem_iff in E. eapply Member_same; [exact S|]. apply Member_app. right. exact E.
    + rewrite IH; [reflexivity|]. destruct M as (z & I & S). exists z. split; [|exact S]. destruct I as [->|I]; apply in_or_app; [right; left; reflexivity|]. apply in_app_or in I. destruct I as [I|I]; [left; exact I|right; right; exact I].
Qed.
Lemma from_list_repeat ms l x l' : Member x l -> from_list ms (l ++ x :: l') = from_list ms (l ++ l').
Proof. intros M. unfold ItemModel.from_list. rewrite onto_repeat; [reflexivity|]. rewrite app_nil_r. exact M. Qed.

(** ** From another group *)
Lemma other_empty other d g : from_other matches order other d = Ok g -> g = Grp [].
Proof. unfold from_other. destruct (mapM _ _); [|discriminate]. cbn [bind]. destruct (from_list [] _); [|discriminate]. intros [= <-]. reflexivity. Qed.
Lemma onto_nil_err x l sn : ordinary x -> asked x <> [] -> mem x sn = false -> exists e, onto [] sn (x :: l) = Err e.
Proof.
  intros O A M. cbn [from_list_onto]. rewrite M. destruct (assemble [] x) as [f|e] eqn:E; [|exists e; reflexivity]. exfalso.
  assert (N : forall x, ordinary x -> asked x <> [] -> forall f, assemble [] x <> Ok f).
  { clear. induction x as [n|b|s|l IH|l IH|d IH|i b d Hi Hb Hd|l IH|n] using obj_ind2; intros O A f H; inversion O as [n' b' d' Nz E|l' F E]; subst.
    - change (getitem [] (MeterID (Int n') b d) = Ok f) in H. destruct (by_id matches order [] (Int n') b d) as (R & _); [discriminate|unfold Same; cbn; congruence|]. apply R in H. destruct H as (x & _ & Fx). apply First_in in Fx. destruct Fx as [[] _].
    - rewrite assemble_group in H. cbn in H. destruct (onto [] [] l) as [r|] eqn:Er; [|discriminate]. clear H.
      assert (G : forall sn r, onto [] sn l = Ok r -> (forall y, In y sn -> asked y = [] /\ idlike y) -> forall y, In y l -> asked y = []).
      { clear r Er A O. induction l as [|y l IHl]; intros sn r Er Hs z Iz; [destruct Iz|]. apply Forall_cons_iff in IH. destruct IH as [Hy IH]. apply Forall_cons_iff in F. destruct F as [Fy F].
        cbn [from_list_onto] in Er. destruct (mem y sn) eqn:M.
        - apply mem_iff in M. destruct M as (w & Iw & Sw). destruct (Hs w Iw) as [Aw Lw]. pose proof (asked_same y w (ordinary_idlike _ Fy) Lw Sw) as SS. rewrite Aw in SS.
          assert (Ay : asked y = []). { destruct (asked y) as [|v k]; [reflexivity|]. destruct (proj1 (SS v) (Member_in v (v :: k) (or_introl eq_refl))) as (? & [] & _). }
          destruct Iz as [<-|Iz]; [exact Ay|]. eapply IHl; eassumption.
        - destruct (assemble [] y) as [fy|] eqn:Ey; [|discriminate]. cbn [bind] in Er. destruct (onto [] (y :: sn) l) as [r'|] eqn:Er'; [|discriminate].
          assert (Ay : asked y = []). { destruct (asked y) as [|v k] eqn:Ak; [reflexivity|]. exfalso. apply (Hy Fy) with (f := fy); [discriminate|reflexivity]. }
          destruct Iz as [<-|Iz]; [exact Ay|]. eapply (IHl IH F (y :: sn) r' Er'); [|exact Iz]. intros w [<-|Iw]; [split; [exact Ay|apply ordinary_idlike; exact Fy]|apply Hs, Iw]. }
      apply A. cbn [asked]. specialize (G [] r Er (fun y (I : In y []) => match I with end)). clear - G. induction l as [|y l IH]; [reflexivity|]. cbn [map concat]. rewrite (G y (or_introl eq_refl)). apply IH. intros z I. apply G. right. exact I. }
  exact (N x O A f E).
Qed.
Lemma other_fails x other d : (forall y, In y (x :: other) -> numbered y /\ instance y <> Int 0) -> from_other matches order (x :: other) d = Err KeyError.
Proof.
  intros H. unfold from_other.
  assert (E : forall l : list node, (forall y, In y l -> numbered y /\ instance y <> Int 0) -> exists ids, mapM (replace_dataset d) (map ident l) = Ok ids /\ Forall ordinary ids /\ Forall (fun z => asked z <> []) ids /\ length ids = length l).
  { clear H. induction l as [|y l IH]; intros H; [exists []; repeat split; constructor|]. destruct (IH (fun z I => H z (or_intror I))) as (ids & E & F1 & F2 & L). destruct (H y (or_introl eq_refl)) as [N Z].
    destruct y as [i b d' s a|]; [|destruct N]. destruct i as [n| | | | | | | |]; try destruct N. cbn [map ident mapM replace_dataset bind]. rewrite E. cbn [bind]. eexists. split; [reflexivity|]. split; [constructor; [constructor; cbn in Z; congruence|exact F1]|]. split; [constructor; [discriminate|exact F2]|cbn; congruence]. }
  destruct (E (x :: other) H) as (ids & -> & F1 & F2 & L). cbn [bind]. destruct ids as [|z ids]; [discriminate|].
  destruct (onto_nil_err z ids [] (Forall_inv F1) (Forall_inv F2) eq_refl) as [e Ee]. 
  destruct (from_list [] (z :: ids)) as [f|e'] eqn:Ef.
  - unfold ItemModel.from_list in Ef. rewrite Ee in Ef. discriminate.
  - cbn [bind]. rewrite (from_list_err [] _ e' F1 Ef). reflexivity.
Qed.
Lemma other_nested other ms d : In (Grp ms) other -> exists e, from_other matches order other d = Err e.
Proof.
  intros I. unfold from_other. assert (E : exists e, mapM (replace_dataset d) (map ident other) = Err e).
  { induction other as [|x other IH]; [destruct I|]. cbn [map mapM]. destruct I as [->|I]; [eexists; reflexivity|]. destruct (replace_dataset d (ident x)); cbn [bind]; [|eexists; reflexivity]. destruct (IH I) as [e ->]. eexists. reflexivity. }
  destruct E as [e ->]. exists e. reflexivity.
Qed.
End Proofs.
