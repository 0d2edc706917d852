(** Proofs about importing the HES data. *)
From Coq Require Import Sorted Permutation.
From Verif Require Import Base HesModel HesSpec.
Import List. Open Scope list_scope. Open Scope Z_scope.

(** * Lists and dictionaries *)
Lemma isin_spec : forall x l, isin x l = true <-> In x l.
Proof.
  intros x l. unfold isin. rewrite existsb_exists. split.
  - intros [y [H E]]. apply Z.eqb_eq in E. subst. exact H.
  - intros H. exists x. split; [exact H | apply Z.eqb_refl].
Qed.
Lemma isin_false : forall x l, isin x l = false <-> ~ In x l.
Proof. intros x l. rewrite <- isin_spec. destruct (isin x l); split; congruence. Qed.

Lemma index_nth : forall x l i, NoDup l -> (index_of x l = Ok i <-> nth_error l i = Some x).
Proof.
  intros x l. induction l as [|y l IH]; intros i N; cbn [index_of].
  - split; [discriminate | destruct i; discriminate].
  - inversion N as [|? ? N1 N2]; subst. destruct (Z.eqb_spec x y) as [->|D].
    + split.
      * intros [= <-]. reflexivity.
      * destruct i as [|i]; [reflexivity | cbn]. intros E. apply nth_error_In in E. contradiction.
    + split.
      * destruct (index_of x l) as [n|e] eqn:E; cbn [bind]; [|discriminate]. intros [= <-]. cbn. exact (proj1 (IH n N2) eq_refl).
      * destruct i as [|i]; cbn; intros E; [congruence|]. rewrite (proj2 (IH i N2) E). reflexivity.
Qed.
Lemma index_in : forall x l, In x l -> exists i, index_of x l = Ok i.
Proof.
  intros x l. induction l as [|y l IH]; intros H; [destruct H|]. cbn [index_of].
  destruct (Z.eqb_spec x y) as [->|D]; [exists 0%nat; reflexivity|].
  destruct H as [->|H]; [congruence|]. destruct (IH H) as [i E]. rewrite E. exists (Datatypes.S i). reflexivity.
Qed.
Lemma NoDup_snoc : forall (l : list Z) x, NoDup l -> ~ In x l -> NoDup (l ++ [x]).
Proof.
  intros l x N H. induction N as [|y l N1 N2 IH]; cbn; [constructor; [intros [] | constructor]|].
  constructor.
  - rewrite in_app_iff. intros [K|[K|[]]]; [contradiction | subst; apply H; left; reflexivity].
  - apply IH. intros K. apply H. right. exact K.
Qed.
Lemma nth_inj : forall (l : list Z) i j x, NoDup l -> nth_error l i = Some x -> nth_error l j = Some x -> i = j.
Proof.
  intros l i j x N A B. apply (index_nth x l i N) in A. apply (index_nth x l j N) in B. congruence.
Qed.
Lemma nth_snoc : forall (l : list Z) x i y, nth_error (l ++ [x]) i = Some y <-> nth_error l i = Some y \/ (i = length l /\ y = x).
Proof.
  intros l x i y. destruct (Nat.ltb_spec i (length l)) as [L|L].
  - rewrite nth_error_app1 by exact L. split; [auto | intros [H|[H _]]; [exact H | lia]].
  - rewrite nth_error_app2 by exact L. split.
    + intros H. right. assert (K : (i - length l < 1)%nat) by (apply (nth_error_Some [x]); congruence).
      assert (i = length l) by lia. subst. rewrite Nat.sub_diag in H. cbn in H. split; congruence.
    + intros [H|[-> ->]]; [|rewrite Nat.sub_diag; reflexivity].
      assert (i < length l)%nat by (apply nth_error_Some; congruence). lia.
Qed.

Lemma insert_key_in : forall x y l, In y (insert_key x l) <-> y = x \/ In y l.
Proof.
  intros x y l. induction l as [|z l IH]; cbn; [intuition|].
  destruct (Z.ltb_spec x z); [cbn; intuition|]. destruct (Z.eqb_spec x z); cbn; [subst; intuition | rewrite IH; intuition].
Qed.
Lemma insert_key_sorted : forall x l, StronglySorted Z.lt l -> StronglySorted Z.lt (insert_key x l).
Proof.
  intros x l H. induction H as [|y l H IH F]; cbn; [repeat constructor|].
  destruct (Z.ltb_spec x y).
  - constructor; [constructor; assumption|]. constructor; [assumption|].
    eapply Forall_impl; [|exact F]. cbn. intros. lia.
  - destruct (Z.eqb_spec x y); [constructor; assumption|]. constructor; [exact IH|].
    apply Forall_forall. intros z Z1. apply insert_key_in in Z1. destruct Z1 as [->|Z1]; [lia|].
    rewrite Forall_forall in F. apply F. exact Z1.
Qed.
Lemma keys_in : forall y l, In y (keys_of l) <-> In y l.
Proof.
  intros y l. unfold keys_of. induction l as [|x l IH]; cbn [fold_right]; [reflexivity|].
  rewrite insert_key_in, IH. cbn. intuition.
Qed.
Lemma keys_nodup : forall l, NoDup (keys_of l).
Proof.
  intros l. assert (S1 : StronglySorted Z.lt (keys_of l)).
  { unfold keys_of. induction l as [|x l IH]; cbn [fold_right]; [constructor | apply insert_key_sorted; exact IH]. }
  induction S1 as [|y k S1 IH F]; constructor; [|exact IH].
  intros H. rewrite Forall_forall in F. specialize (F _ H). lia.
Qed.

Lemma lookup_update : forall {A} k (x : A) l k', lookup k' (update k x l) = if k' =? k then Some x else lookup k' l.
Proof.
  intros A k x l k'. induction l as [|[k1 y] l IH]; cbn.
  - destruct (k' =? k); reflexivity.
  - destruct (Z.eqb_spec k k1) as [->|D]; cbn.
    + destruct (k' =? k1); reflexivity.
    + rewrite IH. destruct (Z.eqb_spec k' k1) as [->|D1]; [|reflexivity].
      rewrite (proj2 (Z.eqb_neq k1 k)) by congruence. reflexivity.
Qed.
Lemma lookup_snoc : forall {A} k (x : A) l k', lookup k l = None -> lookup k' (l ++ [(k, x)]) = if k' =? k then Some x else lookup k' l.
Proof.
  intros A k x l k' N. induction l as [|[k1 y] l IH]; cbn.
  - reflexivity.
  - cbn in N. destruct (Z.eqb_spec k k1) as [->|D]; [discriminate|]. rewrite (IH N).
    destruct (Z.eqb_spec k' k1) as [->|D1]; [|reflexivity]. rewrite (proj2 (Z.eqb_neq k1 k)) by congruence. reflexivity.
Qed.

Lemma same_key_spec : forall a b, same_key a b = true <-> a = b.
Proof.
  intros [a b] [c d]. unfold same_key. cbn. rewrite andb_true_iff, !Nat.eqb_eq. split; [intros []|intros [=]]; subst; auto.
Qed.
Lemma same_key_refl : forall a, same_key a a = true.
Proof. intros a. apply same_key_spec. reflexivity. Qed.
Lemma get_append : forall k t s k',
  get k' (append k t s) = if same_key k' k then Some (match get k s with Some u => u ++ t | None => t end) else get k' s.
Proof.
  intros k t s k'. induction s as [|[k1 u] s IH]; cbn.
  - reflexivity.
  - destruct (same_key k k1) eqn:E; cbn.
    + apply same_key_spec in E. subst. destruct (same_key k' k1) eqn:E1; reflexivity.
    + rewrite IH. destruct (same_key k' k1) eqn:E1; [|reflexivity].
      apply same_key_spec in E1. subst. destruct (same_key k1 k) eqn:E2; [|reflexivity].
      apply same_key_spec in E2. subst. rewrite same_key_refl in E. discriminate.
Qed.

Lemma foldM_app : forall {A B} (f : B -> A -> res B) l1 l2 b, foldM f (l1 ++ l2) b = do b' <- foldM f l1 b; foldM f l2 b'.
Proof.
  intros A B f l1. induction l1 as [|x l1 IH]; intros l2 b; cbn; [reflexivity|].
  destruct (f b x); cbn; [apply IH | reflexivity].
Qed.

(** * The loop *)
Section P.
  Variable sorter : table -> table.

  Definition event := (Z * Z * table)%type.
  Definition picks (h c : Z) (P : list event) : list table :=
    map snd (filter (fun e => (fst (fst e) =? h) && (snd (fst e) =? c)) P).
  Definition of_event (h c : Z) (P : list event) : Prop := exists t, In (h, c, t) P.

  Record Inv (st : state) (H : list Z) (P : list event) : Prop := {
    I_nodup : NoDup (house_codes st);
    I_houses : forall h, In h (house_codes st) <-> In h H;
    I_codes : forall h, In h H -> exists l, lookup h (appliance_codes st) = Some l;
    I_known : forall h l, lookup h (appliance_codes st) = Some l -> In h H /\ NoDup l /\ forall c, In c l <-> of_event h c P;
    I_get : forall h l c i j, nth_error (house_codes st) i = Some h -> lookup h (appliance_codes st) = Some l ->
      nth_error l j = Some c -> get ((i + 1)%nat, (j + 1)%nat) (tables st) = Some (concat (picks h c P));
    I_only : forall k t, get k (tables st) = Some t -> exists h l c i j, nth_error (house_codes st) i = Some h /\
      lookup h (appliance_codes st) = Some l /\ nth_error l j = Some c /\ k = ((i + 1)%nat, (j + 1)%nat) }.

  Lemma inv_empty : Inv empty [] [].
  Proof.
    constructor; cbn; try (intros; discriminate).
    - constructor.
    - intros; reflexivity.
    - intros h [].
  Qed.

  Definition open_house (st : state) (h : Z) : state :=
    mkState (if isin h (house_codes st) then house_codes st else house_codes st ++ [h])
      (match lookup h (appliance_codes st) with Some _ => appliance_codes st | None => appliance_codes st ++ [(h, [])] end)
      (tables st).

  Lemma inv_open : forall st H P h, (forall x c, of_event x c P -> In x H) -> Inv st H P -> Inv (open_house st h) (h :: H) P.
  Proof.
    intros st H P h PH [Ndup Hs Cs Kn G O]. unfold open_house.
    destruct (isin h (house_codes st)) eqn:E.
    - apply isin_spec in E. pose proof (proj1 (Hs h) E) as HH. destruct (Cs h HH) as [l L]. rewrite L.
      destruct st as [hc ac ts]. cbn in *. constructor; cbn; auto.
      + intros x. rewrite Hs. intuition. subst. exact HH.
      + intros x [<-|X]; [eauto | auto].
      + intros x l1 X. destruct (Kn _ _ X). auto.
    - apply isin_false in E. assert (L : lookup h (appliance_codes st) = None).
      { destruct (lookup h (appliance_codes st)) as [l|] eqn:L; [|reflexivity]. destruct (Kn _ _ L) as [A _]. apply Hs in A. contradiction. }
      rewrite L. constructor; cbn [house_codes appliance_codes tables].
      + apply NoDup_snoc; assumption.
      + intros x. rewrite in_app_iff, Hs. cbn. intuition.
      + intros x X. rewrite (lookup_snoc _ _ _ _ L). destruct (Z.eqb_spec x h) as [->|D]; [eauto|].
        destruct X as [X|X]; [congruence | auto].
      + intros x l X. rewrite (lookup_snoc _ _ _ _ L) in X. destruct (Z.eqb_spec x h) as [->|D].
        * injection X as <-. split; [left; reflexivity|]. split; [constructor|]. intros c. split; [intros []|].
          intros X. apply PH in X. apply Hs in X. contradiction.
        * destruct (Kn _ _ X). split; [right; assumption | assumption].
      + intros x l c i j X1 X2 X3. rewrite (lookup_snoc _ _ _ _ L) in X2. destruct (Z.eqb_spec x h) as [->|D].
        * injection X2 as <-. destruct j; discriminate.
        * apply nth_snoc in X1. destruct X1 as [X1|[_ X1]]; [|contradiction]. eapply G; eassumption.
      + intros k t K. destruct (O k t K) as (x & l & c & i & j & X1 & X2 & X3 & X4). exists x, l, c, i, j.
        repeat split; auto.
        * apply nth_snoc. left. exact X1.
        * rewrite (lookup_snoc _ _ _ _ L). destruct (Z.eqb_spec x h) as [->|D]; [congruence | exact X2].
  Qed.

  Lemma picks_snoc : forall h c P h' c' t,
    picks h c (P ++ [(h', c', t)]) = picks h c P ++ (if (h' =? h) && (c' =? c) then [t] else []).
  Proof.
    intros. unfold picks. rewrite filter_app, map_app. f_equal. cbn. destruct ((h' =? h) && (c' =? c)); reflexivity.
  Qed.
  Lemma picks_nil : forall h c P, ~ of_event h c P -> picks h c P = [].
  Proof.
    intros h c P N. unfold picks. induction P as [|[[a b] t] P IH]; [reflexivity|]. cbn.
    destruct ((a =? h) && (b =? c)) eqn:E; cbn.
    - exfalso. apply N. exists t. left. apply andb_prop in E. destruct E as [E1 E2]. apply Z.eqb_eq in E1, E2. subst. reflexivity.
    - apply IH. intros [u U]. apply N. exists u. right. exact U.
  Qed.
  Lemma of_event_snoc : forall h c P h' c' t, of_event h c (P ++ [(h', c', t)]) <-> of_event h c P \/ (h = h' /\ c = c').
  Proof.
    intros. unfold of_event. split.
    - intros [u U]. apply in_app_iff in U. destruct U as [U|[U|[]]]; [left; eauto | right; injection U as -> -> ->; auto].
    - intros [[u U]|[-> ->]]; [exists u; apply in_app_iff; auto | exists t; apply in_app_iff; right; left; reflexivity].
  Qed.

  Lemma inv_code : forall st H P h i rows c, nth_error (house_codes st) i = Some h -> Inv st H P ->
    exists st', do_code sorter h (i + 1) rows st c = Ok st' /\ house_codes st' = house_codes st /\
      Inv st' H (P ++ [(h, c, sorter (map (fun r => (fst r, data (snd r))) rows))]).
  Proof.
    intros st H P h i rows c X [Ndup Hs Cs Kn G O]. unfold do_code.
    assert (HH : In h H) by (apply Hs; eapply nth_error_In; exact X).
    destruct (Cs h HH) as [l L]. rewrite L. destruct (Kn _ _ L) as (_ & N & Ev).
    set (t := sorter _). set (l' := if isin c l then l else l ++ [c]).
    assert (N' : NoDup l').
    { unfold l'. destruct (isin c l) eqn:E; [exact N|]. apply isin_false in E. apply NoDup_snoc; assumption. }
    assert (Il : forall x, In x l' <-> In x l \/ x = c).
    { intros x. unfold l'. destruct (isin c l) eqn:E; [apply isin_spec in E | rewrite in_app_iff]; cbn; intuition. subst. exact E. }
    assert (Nl : forall j x, nth_error l j = Some x -> nth_error l' j = Some x).
    { intros j x K. unfold l'. destruct (isin c l); [exact K | apply nth_snoc; auto]. }
    destruct (index_in c l') as [j J]; [apply Il; auto|]. rewrite J. cbn [bind].
    eexists. split; [reflexivity|]. split; [reflexivity|].
    apply (index_nth c l' j N') in J. unfold process_meter. fold t.
    constructor; cbn [house_codes appliance_codes tables].
    - exact Ndup.
    - exact Hs.
    - intros x XH. rewrite lookup_update. destruct (x =? h); eauto.
    - intros x l1. rewrite lookup_update. destruct (Z.eqb_spec x h) as [->|D].
      + intros [= <-]. split; [exact HH|]. split; [exact N'|]. intros y. rewrite Il, of_event_snoc, Ev. intuition.
      + intros K. destruct (Kn _ _ K) as (K1 & K2 & K3). split; [exact K1|]. split; [exact K2|].
        intros y. rewrite of_event_snoc, K3. intuition.
    - intros x l1 y i1 j1 X1 X2 X3. rewrite lookup_update in X2. rewrite get_append, picks_snoc, concat_app.
      destruct (Z.eqb_spec x h) as [->|D].
      + injection X2 as <-. assert (i1 = i) by exact (nth_inj _ _ _ _ Ndup X1 X). subst i1.
        rewrite Z.eqb_refl, andb_true_l. destruct (Z.eqb_spec c y) as [<-|Dy].
        * assert (j1 = j) by exact (nth_inj _ _ _ _ N' X3 J). subst j1. rewrite same_key_refl. cbn. rewrite app_nil_r. f_equal.
          destruct (isin c l) eqn:E.
          -- unfold l' in J. rewrite (G _ _ _ _ _ X L J). reflexivity.
          -- apply isin_false in E. rewrite picks_nil by (rewrite <- Ev; exact E). cbn.
             destruct (get ((i + 1)%nat, (j + 1)%nat) (tables st)) as [u|] eqn:U; [|reflexivity]. exfalso.
             destruct (O _ _ U) as (x & l2 & y & i2 & j2 & Y1 & Y2 & Y3 & Y4). injection Y4 as Y4 Y5.
             assert (i2 = i) by lia. assert (j2 = j) by lia. subst i2 j2. rewrite X in Y1. injection Y1 as <-.
             rewrite L in Y2. injection Y2 as <-. pose proof (Nl _ _ Y3) as Y6. rewrite J in Y6. injection Y6 as <-.
             apply nth_error_In in Y3. contradiction.
        * cbn. rewrite app_nil_r. destruct (same_key ((i + 1)%nat, (j1 + 1)%nat) ((i + 1)%nat, (j + 1)%nat)) eqn:E.
          -- apply same_key_spec in E. injection E as E. assert (j1 = j) by lia. subst. congruence.
          -- eapply G; [exact X | exact L |]. unfold l' in X3. destruct (isin c l); [exact X3|].
             apply nth_snoc in X3. destruct X3 as [X3|[_ X3]]; [exact X3 | congruence].
      + rewrite (proj2 (Z.eqb_neq h x)) by congruence. cbn. rewrite app_nil_r.
        destruct (same_key ((i1 + 1)%nat, (j1 + 1)%nat) ((i + 1)%nat, (j + 1)%nat)) eqn:E.
        * apply same_key_spec in E. injection E as E _. assert (i1 = i) by lia. subst. congruence.
        * eapply G; eassumption.
    - intros k u. rewrite get_append. destruct (same_key k ((i + 1)%nat, (j + 1)%nat)) eqn:E.
      + intros _. apply same_key_spec in E. exists h, l', c, i, j. repeat split; auto. rewrite lookup_update, Z.eqb_refl. reflexivity.
      + intros K. destruct (O _ _ K) as (x & l2 & y & i2 & j2 & Y1 & Y2 & Y3 & Y4).
        destruct (Z.eqb_spec x h) as [->|D].
        * rewrite L in Y2. injection Y2 as <-. exists h, l', y, i2, j2. repeat split; auto. rewrite lookup_update, Z.eqb_refl. reflexivity.
        * exists x, l2, y, i2, j2. repeat split; auto. rewrite lookup_update, (proj2 (Z.eqb_neq x h)) by assumption. exact Y2.
  Qed.

  Lemma inv_codes : forall cs st H P h i rows, nth_error (house_codes st) i = Some h -> Inv st H P ->
    exists st', foldM (do_code sorter h (i + 1) rows) cs st = Ok st' /\ house_codes st' = house_codes st /\
      Inv st' H (P ++ map (fun c => (h, c, sorter (map (fun r => (fst r, data (snd r))) rows))) cs).
  Proof.
    induction cs as [|c cs IH]; intros st H P h i rows X I; cbn [foldM map].
    - exists st. rewrite app_nil_r. auto.
    - destruct (inv_code _ _ _ _ _ rows c X I) as (st1 & E & Hc & I1). rewrite E. cbn [bind].
      rewrite <- Hc in X. destruct (IH st1 H _ h i rows X I1) as (st2 & E2 & Hc2 & I2). exists st2.
      split; [exact E2|]. split; [congruence|]. rewrite <- app_assoc in I2. exact I2.
  Qed.

  Definition house_events (rows : list (Z * row)) (h : Z) : list event :=
    map (fun c => (h, c, sorter (map (fun r => (fst r, data (snd r))) (filter (fun r => house (snd r) =? h) rows))))
      (keys_of (map (fun r => code (snd r)) rows)).

  Lemma inv_house : forall st H P rows h, (forall x c, of_event x c P -> In x H) -> Inv st H P ->
    exists st', do_house sorter rows st h = Ok st' /\ Inv st' (h :: H) (P ++ house_events rows h).
  Proof.
    intros st H P rows h PH I. pose proof (inv_open _ _ _ h PH I) as I1. unfold do_house.
    change (if isin h (house_codes st) then house_codes st else house_codes st ++ [h]) with (house_codes (open_house st h)).
    destruct (index_in h (house_codes (open_house st h))) as [b B]; [apply (I_houses _ _ _ I1); left; reflexivity|].
    rewrite B. cbn [bind]. apply (index_nth _ _ _ (I_nodup _ _ _ I1)) in B.
    destruct (inv_codes (keys_of (map (fun r => code (snd r)) rows)) _ _ _ _ _ (filter (fun r => house (snd r) =? h) rows) B I1) as (st' & E & _ & I2).
    exists st'. split; [exact E | exact I2].
  Qed.

  Lemma inv_houses : forall hs st H P rows, (forall x c, of_event x c P -> In x H) -> Inv st H P ->
    exists st', foldM (do_house sorter rows) hs st = Ok st' /\ Inv st' (rev hs ++ H) (P ++ flat_map (house_events rows) hs).
  Proof.
    induction hs as [|h hs IH]; intros st H P rows PH I; cbn [foldM flat_map rev].
    - exists st. rewrite app_nil_r. auto.
    - destruct (inv_house _ _ _ rows h PH I) as (st1 & E & I1). rewrite E. cbn [bind].
      destruct (IH st1 (h :: H) (P ++ house_events rows h) rows) as (st2 & E2 & I2).
      + intros x c [t T]. apply in_app_iff in T. destruct T as [T|T]; [right; apply (PH x c); exists t; exact T|].
        apply in_map_iff in T. destruct T as (y & T & _). injection T as -> _ _. left. reflexivity.
      + exact I1.
      + exists st2. split; [exact E2|]. rewrite <- !app_assoc in *. exact I2.
  Qed.

  (** ** A chunk *)
  Definition conv (c : chunk) : list (Z * row) :=
    flat_map (fun r => match moment r with Some t => [(t, mkRow (house r) (code r) (Some t) (data r * 10))] | None => [] end) c.
  Lemma convert_rows : forall c, timed c -> mapM convert_row c = Ok (conv c).
  Proof.
    intros c T. induction T as [|r c N T IH]; [reflexivity|]. cbn [mapM conv flat_map]. unfold convert_row at 1.
    destruct (moment r) as [t|]; [|congruence]. cbn [bind]. rewrite IH. reflexivity.
  Qed.
  Lemma conv_houses : forall c, timed c -> map (fun r => house (snd r)) (conv c) = map house c.
  Proof.
    intros c T. induction T as [|r c N T IH]; [reflexivity|]. cbn [conv flat_map map]. destruct (moment r); [|congruence].
    cbn. f_equal. exact IH.
  Qed.
  Lemma conv_codes : forall c, timed c -> map (fun r => code (snd r)) (conv c) = map code c.
  Proof.
    intros c T. induction T as [|r c N T IH]; [reflexivity|]. cbn [conv flat_map map]. destruct (moment r); [|congruence].
    cbn. f_equal. exact IH.
  Qed.
  Lemma conv_of_house : forall h c, timed c ->
    map (fun r => (fst r, data (snd r))) (filter (fun r => house (snd r) =? h) (conv c)) = of_house h c.
  Proof.
    intros h c T. unfold of_house. induction T as [|r c N T IH]; [reflexivity|]. cbn [conv flat_map filter].
    destruct (moment r) as [t|] eqn:M; [|congruence]. rewrite (Z.mul_comm (data r) 10). cbn [List.app filter snd house]. destruct (house r =? h); cbn [map flat_map fst snd data]; [|exact IH].
    unfold reading at 1. rewrite M. cbn [List.app]. f_equal. exact IH.
  Qed.

  Definition chunk_events (c : chunk) : list event :=
    flat_map (fun h => map (fun a => (h, a, sorter (of_house h c))) (keys_of (map code c))) (keys_of (map house c)).

  Lemma inv_chunk : forall st H P c, timed c -> (forall x a, of_event x a P <-> In x H /\ of_event x a P) -> Inv st H P ->
    exists st', do_chunk sorter st c = Ok st' /\ Inv st' (rev (keys_of (map house c)) ++ H) (P ++ chunk_events c).
  Proof.
    intros st H P c T PH I. unfold do_chunk. rewrite (convert_rows c T). cbn [bind]. rewrite (conv_houses c T).
    destruct (inv_houses (keys_of (map house c)) st H P (conv c)) as (st' & E & I1).
    - intros x a X. apply PH in X. tauto.
    - exact I.
    - exists st'. split; [exact E|]. replace (chunk_events c) with (flat_map (house_events (conv c)) (keys_of (map house c))); [exact I1|].
      unfold chunk_events. apply flat_map_ext. intros h. unfold house_events. rewrite (conv_codes c T), (conv_of_house h c T). reflexivity.
  Qed.

  Lemma has_house_spec : forall h c, has_house h c = true <-> In h (keys_of (map house c)).
  Proof.
    intros h c. rewrite keys_in, in_map_iff. unfold has_house. rewrite existsb_exists. split; intros (r & A & B); exists r.
    - apply Z.eqb_eq in B. auto.
    - subst. split; [assumption | apply Z.eqb_refl].
  Qed.
  Lemma has_code_spec : forall h c, has_code h c = true <-> In h (keys_of (map code c)).
  Proof.
    intros h c. rewrite keys_in, in_map_iff. unfold has_code. rewrite existsb_exists. split; intros (r & A & B); exists r.
    - apply Z.eqb_eq in B. auto.
    - subst. split; [assumption | apply Z.eqb_refl].
  Qed.
  Lemma chunk_events_in : forall c h a t, In (h, a, t) (chunk_events c) <-> has_house h c = true /\ has_code a c = true /\ t = sorter (of_house h c).
  Proof.
    intros c h a t. unfold chunk_events. rewrite in_flat_map, has_house_spec, has_code_spec. split.
    - intros (x & X & Y). apply in_map_iff in Y. destruct Y as (y & E & Y). injection E as -> -> <-. auto.
    - intros (A & B & ->). exists h. split; [exact A|]. apply in_map_iff. exists a. auto.
  Qed.

  Lemma picks_one : forall h a (ks : list Z) (f : Z -> table), NoDup ks ->
    picks h a (map (fun x => (h, x, f h)) ks) = if isin a ks then [f h] else [].
  Proof.
    intros h a ks f N. unfold picks. induction N as [|k ks K N IH]; [reflexivity|]. cbn. rewrite Z.eqb_refl. cbn.
    rewrite Z.eqb_sym. destruct (Z.eqb_spec a k) as [->|D]; cbn.
    - rewrite IH. rewrite (proj2 (isin_false k ks)) by exact K. reflexivity.
    - rewrite IH. reflexivity.
  Qed.
  Lemma picks_other : forall h a x (ks : list Z) (f : Z -> table), x <> h -> picks h a (map (fun y => (x, y, f x)) ks) = [].
  Proof.
    intros h a x ks f D. unfold picks. induction ks as [|k ks IH]; [reflexivity|]. cbn.
    rewrite (proj2 (Z.eqb_neq x h)) by exact D. exact IH.
  Qed.
  Lemma picks_app : forall h a P Q, picks h a (P ++ Q) = picks h a P ++ picks h a Q.
  Proof. intros. unfold picks. rewrite filter_app, map_app. reflexivity. Qed.
  Lemma picks_chunk : forall h a c, picks h a (chunk_events c) = if has_house h c && has_code a c then [sorter (of_house h c)] else [].
  Proof.
    intros h a c. unfold chunk_events.
    assert (K : forall hs, NoDup hs -> picks h a (flat_map (fun h => map (fun a => (h, a, sorter (of_house h c))) (keys_of (map code c))) hs)
      = if isin h hs && has_code a c then [sorter (of_house h c)] else []).
    { intros hs N. induction N as [|x hs X N IH]; [reflexivity|]. cbn [flat_map]. rewrite picks_app, IH. cbn [isin existsb].
      fold (isin h hs). destruct (Z.eqb_spec h x) as [<-|D].
      - rewrite (picks_one h a _ (fun h => sorter (of_house h c)) (keys_nodup _)). rewrite (proj2 (isin_false h hs)) by exact X. cbn.
        rewrite app_nil_r. replace (has_code a c) with (isin a (keys_of (map code c))); [reflexivity|].
        destruct (isin a (keys_of (map code c))) eqn:E; symmetry.
        + apply has_code_spec. apply isin_spec. exact E.
        + apply not_true_iff_false. rewrite has_code_spec. apply isin_false. exact E.
      - rewrite (picks_other h a x _ (fun h => sorter (of_house h c))) by congruence. reflexivity. }
    rewrite (K _ (keys_nodup _)). replace (isin h (keys_of (map house c))) with (has_house h c); [reflexivity|].
    destruct (has_house h c) eqn:E; symmetry.
    + apply isin_spec. apply has_house_spec. exact E.
    + apply isin_false. rewrite <- has_house_spec. congruence.
  Qed.

  (** ** Chunks and files *)
  Definition seen (cs : list chunk) : list Z := fold_left (fun H c => rev (keys_of (map house c)) ++ H) cs [].
  Lemma of_event_app : forall h a P Q, of_event h a (P ++ Q) <-> of_event h a P \/ of_event h a Q.
  Proof.
    intros. unfold of_event. split.
    - intros [t T]. apply in_app_iff in T. destruct T; eauto.
    - intros [[t T]|[t T]]; exists t; apply in_app_iff; auto.
  Qed.
  Lemma of_event_flat : forall h a cs, of_event h a (flat_map chunk_events cs) <-> together cs h a.
  Proof.
    intros h a cs. unfold of_event, together. split.
    - intros [t T]. apply in_flat_map in T. destruct T as (c & C & T). apply chunk_events_in in T. exists c. tauto.
    - intros (c & C & A & B). exists (sorter (of_house h c)). apply in_flat_map. exists c. split; [exact C|]. apply chunk_events_in. auto.
  Qed.

  (** What the loop has done after the chunks [cs]. *)
  Definition Done (st : state) (cs : list chunk) : Prop :=
    exists H, (forall h, In h H <-> exists a, together cs h a) /\ Inv st H (flat_map chunk_events cs).

  Lemma done_empty : Done empty [].
  Proof.
    exists []. split; [|exact inv_empty]. intros h. split; [intros [] | intros (a & c & [] & _)].
  Qed.
  Lemma done_chunk : forall st cs c, timed c -> Done st cs -> exists st', do_chunk sorter st c = Ok st' /\ Done st' (cs ++ [c]).
  Proof.
    intros st cs c T (H & HH & I). destruct (inv_chunk st H (flat_map chunk_events cs) c T) as (st' & E & I').
    - intros x a. rewrite of_event_flat, HH. split; [intros X; split; [exists a|]; exact X | tauto].
    - exact I.
    - exists st'. split; [exact E|]. eexists. split; [|rewrite flat_map_app; cbn; rewrite app_nil_r; exact I'].
      intros h. rewrite in_app_iff, <- in_rev, HH, <- has_house_spec. unfold together. split.
      + intros [A|(a & k & K & A)].
        * unfold has_house in A. pose proof A as A'. apply existsb_exists in A. destruct A as (r & R & _). exists (code r), c.
          split; [apply in_app_iff; right; left; reflexivity|]. split; [exact A'|]. apply existsb_exists. exists r. split; [exact R | apply Z.eqb_refl].
        * exists a, k. split; [apply in_app_iff; left; exact K | exact A].
      + intros (a & k & K & A & B). apply in_app_iff in K. destruct K as [K|[<-|[]]]; [right; exists a, k; auto | left; exact A].
  Qed.

  Lemma firsts_step : forall n i cs, 0 <= i -> n <=? i = false -> forall (c : chunk),
    firstn (Z.to_nat (n - i)) (c :: cs) = c :: firstn (Z.to_nat (n - (i + 1))) cs.
  Proof.
    intros n i cs I L c. apply Z.leb_gt in L. replace (Z.to_nat (n - i)) with (Datatypes.S (Z.to_nat (n - (i + 1)))) by lia. reflexivity.
  Qed.
  Definition from (limit : option Z) (i : Z) (cs : list chunk) : list chunk :=
    match limit with Some n => firstn (Z.to_nat (n - i)) cs | None => cs end.
  Lemma done_chunks : forall cs limit i st done, 0 <= i -> Forall timed (from limit i cs) -> Done st done ->
    exists st', do_chunks sorter limit i (map Ok cs) st = (st', None) /\ Done st' (done ++ from limit i cs).
  Proof.
    induction cs as [|c cs IH]; intros limit i st done I T D; cbn [map do_chunks].
    - exists st. split; [reflexivity|]. replace (from limit i []) with (@nil chunk); [rewrite app_nil_r; exact D|].
      destruct limit; cbn; [rewrite firstn_nil|]; reflexivity.
    - destruct limit as [n|].
      + destruct (n <=? i) eqn:L.
        * exists st. split; [reflexivity|]. cbn. apply Z.leb_le in L. replace (Z.to_nat (n - i)) with 0%nat by lia. cbn. rewrite app_nil_r. exact D.
        * cbn [from] in *. rewrite (firsts_step n i cs I L c) in *. inversion T as [|? ? T1 T2]; subst.
          destruct (done_chunk st done c T1 D) as (st1 & E1 & D1). rewrite E1.
          destruct (IH (Some n) (i + 1) st1 (done ++ [c])) as (st2 & E2 & D2); [lia | exact T2 | exact D1 |].
          exists st2. split; [exact E2|]. rewrite <- app_assoc in D2. exact D2.
      + cbn [from] in *. inversion T as [|? ? T1 T2]; subst. destruct (done_chunk st done c T1 D) as (st1 & E1 & D1). rewrite E1.
        destruct (IH None (i + 1) st1 (done ++ [c])) as (st2 & E2 & D2); [lia | exact T2 | exact D1 |].
        exists st2. split; [exact E2|]. rewrite <- app_assoc in D2. exact D2.
  Qed.
  Lemma firsts_from : forall limit cs, firsts limit cs = from limit 0 cs.
  Proof. intros [n|] cs; cbn; [rewrite Z.sub_0_r|]; reflexivity. Qed.

  Lemma done_files : forall fs limit st done, Forall timed (chunks limit fs) -> Done st done ->
    exists st', do_files sorter limit (readable fs) st = (st', None) /\ Done st' (done ++ chunks limit fs).
  Proof.
    induction fs as [|[cs|] fs IH]; intros limit st done T D; cbn [readable map option_map do_files].
    - exists st. split; [reflexivity|]. cbn. rewrite app_nil_r. exact D.
    - cbn [chunks flat_map] in T. apply Forall_app in T. destruct T as [T1 T2]. rewrite firsts_from in T1.
      destruct (done_chunks cs limit 0 st done) as (st1 & E1 & D1); [lia | exact T1 | exact D |]. rewrite E1.
      destruct (IH limit st1 _ T2 D1) as (st2 & E2 & D2). exists st2. split; [exact E2|].
      rewrite <- app_assoc in D2. cbn [chunks flat_map]. rewrite firsts_from. exact D2.
    - apply IH; assumption.
  Qed.

  (** Reading what was done: numbers and tables. *)
  Definition house_number (st : state) (h : Z) : nat := match index_of h (house_codes st) with Ok i => (i + 1)%nat | Err _ => 0%nat end.
  Definition meter_number (st : state) (h a : Z) : nat :=
    match lookup h (appliance_codes st) with
    | Some l => match index_of a l with Ok i => (i + 1)%nat | Err _ => 0%nat end
    | None => 0%nat
    end.

  Lemma content_picks : forall cs h a, content sorter cs h a = concat (picks h a (flat_map chunk_events cs)).
  Proof.
    intros cs h a. unfold content. induction cs as [|c cs IH]; [reflexivity|]. cbn [flat_map]. rewrite picks_app, concat_app, <- IH, picks_chunk.
    f_equal. destruct (has_house h c && has_code a c); cbn; [rewrite app_nil_r|]; reflexivity.
  Qed.

  Lemma done_numbers : forall st cs h a, Done st cs -> together cs h a ->
    exists i l j, nth_error (house_codes st) i = Some h /\ lookup h (appliance_codes st) = Some l /\ NoDup l /\ nth_error l j = Some a /\
      house_number st h = (i + 1)%nat /\ meter_number st h a = (j + 1)%nat.
  Proof.
    intros st cs h a (H & HH & I) T. assert (IH : In h H) by (apply HH; exists a; exact T).
    pose proof (proj2 (I_houses _ _ _ I h) IH) as IC. destruct (index_in _ _ IC) as [i E].
    destruct (I_codes _ _ _ I h IH) as [l L]. destruct (I_known _ _ _ I h l L) as (_ & N & Ev).
    assert (IA : In a l) by (apply Ev; apply of_event_flat; exact T). destruct (index_in _ _ IA) as [j J].
    exists i, l, j. unfold house_number, meter_number. rewrite E, L, J.
    apply (index_nth _ _ _ (I_nodup _ _ _ I)) in E. apply (index_nth _ _ _ N) in J. repeat split; auto.
  Qed.

  Lemma done_numbering : forall st cs, Done st cs -> numbering cs (house_number st) (meter_number st).
  Proof.
    intros st cs D. split; [|split].
    - intros h h' a a' T T' E. destruct (done_numbers _ _ _ _ D T) as (i & l & j & X1 & _ & _ & _ & X2 & _).
      destruct (done_numbers _ _ _ _ D T') as (i' & l' & j' & Y1 & _ & _ & _ & Y2 & _). assert (i = i') by lia. subst. congruence.
    - intros h a a' T T' E. destruct (done_numbers _ _ _ _ D T) as (i & l & j & _ & X1 & _ & X2 & _ & X3).
      destruct (done_numbers _ _ _ _ D T') as (i' & l' & j' & _ & Y1 & _ & Y2 & _ & Y3). rewrite X1 in Y1. injection Y1 as <-.
      assert (j = j') by lia. subst. congruence.
    - intros h a T. destruct (done_numbers _ _ _ _ D T) as (i & l & j & _ & _ & _ & _ & -> & ->). lia.
  Qed.
  Lemma done_holds : forall st cs, Done st cs -> holds cs (house_number st) (meter_number st) (tables st) (content sorter cs).
  Proof.
    intros st cs D. split.
    - intros h a T. destruct (done_numbers _ _ _ _ D T) as (i & l & j & X1 & X2 & _ & X3 & -> & ->). destruct D as (H & HH & I).
      rewrite content_picks. eapply (I_get _ _ _ I); eassumption.
    - intros k t K. pose proof D as D0. destruct D as (H & HH & I). destruct (I_only _ _ _ I k t K) as (h & l & a & i & j & X1 & X2 & X3 & ->).
      exists h, a. assert (T : together cs h a).
      { apply of_event_flat. destruct (I_known _ _ _ I h l X2) as (_ & _ & Ev). apply Ev. eapply nth_error_In. exact X3. }
      split; [exact T|]. destruct (done_numbers _ _ _ _ D0 T) as (i' & l' & j' & Y1 & Y2 & YN & Y3 & -> & ->).
      rewrite X2 in Y2. injection Y2 as <-. rewrite (nth_inj _ _ _ _ (I_nodup _ _ _ I) X1 Y1), (nth_inj _ _ _ _ YN X3 Y3). reflexivity.
  Qed.

  (** ** Interrupted reading *)
  Lemma do_chunks_stop : forall cs st e rest i, Forall timed cs ->
    do_chunks sorter None i (map Ok cs ++ Err e :: rest) st = (fst (do_chunks sorter None i (map Ok cs) st), match snd (do_chunks sorter None i (map Ok cs) st) with None => Some e | Some x => Some x end).
  Proof.
    intros cs st e rest. revert st. induction cs as [|c cs IH]; intros st i T; cbn [map List.app do_chunks]; [reflexivity|].
    inversion T; subst. destruct (do_chunk sorter st c); [|reflexivity]. apply IH. assumption.
  Qed.
  Lemma do_files_app : forall fs gs st, do_files sorter None (fs ++ gs) st =
    match do_files sorter None fs st with (st, None) => do_files sorter None gs st | (st, Some e) => (st, Some e) end.
  Proof.
    induction fs as [|[cs|] fs IH]; intros gs st; cbn [List.app do_files]; [reflexivity | | apply IH].
    destruct (do_chunks sorter None 0 cs st) as [st1 [e|]]; [reflexivity | apply IH].
  Qed.
End P.

(** * Metadata *)
Section M.
  Context {name type : Type}.
  Variable same : type -> type -> bool.
  Variable names : list (Z * (name * type)).

  Definition plain (c : Z) : bool := negb (is_mains c || is_circuit c || is_temperature c).
  Lemma plain_spec : forall c, plain c = true <-> appliance_code c.
  Proof. intros c. unfold plain, is_mains, is_circuit, is_temperature, appliance_code. cbn. lia. Qed.
  Fixpoint prefix (l : list Z) : list Z := match l with [] => [] | c :: r => if plain c then c :: prefix r else [] end.
  Lemma prefix_nth : forall l j, (j < length (prefix l))%nat <-> (j < length l)%nat /\ forall i a, (i <= j)%nat -> nth_error l i = Some a -> appliance_code a.
  Proof.
    induction l as [|c l IH]; intros j; cbn [prefix].
    - cbn. split; [lia | intros []; lia].
    - destruct (plain c) eqn:E.
      + cbn [length]. destruct j as [|j].
        * split; [|lia]. intros _. split; [lia|]. intros i a I A. assert (i = 0)%nat by lia. subst. cbn in A. injection A as <-.
          apply plain_spec. exact E.
        * split.
          -- intros H. apply Nat.succ_lt_mono in H. apply IH in H. destruct H as [H1 H2]. split; [lia|]. intros [|i] a I A.
             ++ cbn in A. injection A as <-. apply plain_spec. exact E.
             ++ apply (H2 i); [lia | exact A].
          -- intros [H1 H2]. apply (proj1 (Nat.succ_lt_mono _ _)). apply IH. split; [lia|]. intros i a I A. apply (H2 (Datatypes.S i)); [lia | exact A].
      + cbn. split; [lia|]. intros [_ H]. specialize (H 0%nat c (Nat.le_0_l _) eq_refl). apply plain_spec in H. congruence.
  Qed.

  Definition counted (apps : list (appliance name type)) : Prop :=
    forall l1 x l2, apps = l1 ++ x :: l2 -> instance_of x = Datatypes.S (length (filter (fun y => same (type_of x) (type_of y)) l1)).
  Lemma count_filter : forall t (l : list (appliance name type)), count same t l = length (filter (fun y => same t (type_of y)) l).
  Proof.
    intros t l. induction l as [|[[[n t'] i] m] l IH]; [reflexivity|]. cbn [count filter type_of fst snd]. unfold type_of at 1. cbn [fst snd].
    destruct (same t t'); cbn; rewrite IH; reflexivity.
  Qed.
  Lemma counted_snoc : forall apps n t m, counted apps -> counted (apps ++ [(n, t, (count same t apps + 1)%nat, m)]).
  Proof.
    intros apps n t m C l1 x l2 E. destruct l2 as [|y l2] using rev_ind.
    - apply app_inj_tail in E. destruct E as [<- <-]. unfold instance_of at 1, type_of at 1. cbn [fst snd]. rewrite count_filter. lia.
    - clear IHl2. rewrite app_comm_cons, app_assoc in E. apply app_inj_tail in E. destruct E as [E _]. exact (C _ _ _ E).
  Qed.

  Lemma describe_ok : forall todo past ms apps M A, NoDup (past ++ todo) ->
    describe same names (past ++ todo) todo ms apps = Ok (M, A) ->
    M = ms ++ map Datatypes.S (seq (length past) (length (prefix todo))) /\
    map meter_of A = map meter_of apps ++ map Datatypes.S (seq (length past) (length (prefix todo))) /\
    (forall x, In x A -> In x apps \/ exists j a, nth_error (past ++ todo) j = Some a /\ meter_of x = (j + 1)%nat /\ lookup a names = Some (name_of x, type_of x)) /\
    (counted apps -> counted A).
  Proof.
    induction todo as [|c todo IH]; intros past ms apps M A N E.
    - cbn in E. injection E as <- <-. cbn. rewrite !app_nil_r. auto.
    - cbn [describe prefix] in *. assert (J : nth_error (past ++ c :: todo) (length past) = Some c) by (rewrite nth_error_app2, Nat.sub_diag by lia; reflexivity).
      rewrite (proj2 (index_nth c _ _ N) J) in E. cbn [bind] in E. unfold plain.
      destruct (is_mains c); [injection E as <- <-; cbn; rewrite !app_nil_r; auto|].
      destruct (is_circuit c); [injection E as <- <-; cbn; rewrite !app_nil_r; auto|].
      destruct (is_temperature c); [injection E as <- <-; cbn; rewrite !app_nil_r; auto|].
      cbn [orb negb length seq map]. destruct (lookup c names) as [[n t]|] eqn:L; [|discriminate].
      assert (P : past ++ c :: todo = (past ++ [c]) ++ todo) by (rewrite <- app_assoc; reflexivity).
      rewrite P in E, N. destruct (IH _ _ _ _ _ N E) as (X1 & X2 & X3 & X4). rewrite app_length in X1, X2. cbn [length] in X1, X2.
      rewrite Nat.add_1_r in X1, X2. rewrite <- app_assoc in X1. cbn [List.app] in X1. rewrite map_app, <- app_assoc in X2. cbn [map List.app meter_of snd] in X2.
      cbn [meter_of snd] in X2. replace (length past + 1)%nat with (Datatypes.S (length past)) in X2 by lia.
      split; [exact X1|]. split; [exact X2|]. split.
      + intros x X. destruct (X3 x X) as [X5|X5]; [|right; rewrite P; exact X5]. apply in_app_iff in X5. destruct X5 as [X5|[<-|[]]]; [left; exact X5|].
        right. exists (length past), c. split; [exact J|]. unfold meter_of, name_of, type_of. cbn. split; [lia | exact L].
      + intros C. apply X4. apply counted_snoc. exact C.
  Qed.

  Lemma mapM_in : forall {A B} (f : A -> res B) l ys, mapM f l = Ok ys -> forall y, In y ys -> exists x, In x l /\ f x = Ok y.
  Proof.
    intros A B f l. induction l as [|x l IH]; intros ys E y Y; cbn [mapM] in E.
    - injection E as <-. destruct Y.
    - destruct (f x) as [z|] eqn:Z1; cbn [bind] in E; [|discriminate]. destruct (mapM f l) as [zs|]; cbn [bind] in E; [|discriminate].
      injection E as <-. destruct Y as [<-|Y]; [exists x; split; [left; reflexivity | exact Z1]|].
      destruct (IH zs eq_refl y Y) as (x' & X1 & X2). exists x'. split; [right; exact X1 | exact X2].
  Qed.
  Lemma describe_house_orig : forall st h b, describe_house same names st h = Ok b -> snd (fst (fst b)) = h.
  Proof.
    intros st h b E. unfold describe_house in E. destruct (index_of h (house_codes st)); cbn [bind] in E; [|discriminate].
    destruct (lookup h (appliance_codes st)); [|discriminate]. destruct (describe _ _ _ _ _ _); cbn [bind] in E; [|discriminate].
    injection E as <-. reflexivity.
  Qed.
  Lemma describe_houses_orig : forall st l bs, mapM (describe_house same names st) l = Ok bs -> map (fun b => snd (fst (fst b))) bs = l.
  Proof.
    intros st l. induction l as [|h l IH]; intros bs E; cbn [mapM] in E; [injection E as <-; reflexivity|].
    destruct (describe_house same names st h) as [b|] eqn:B; cbn [bind] in E; [|discriminate].
    destruct (mapM (describe_house same names st) l) as [zs|]; cbn [bind] in E; [|discriminate].
    injection E as <-. cbn [map]. rewrite (describe_house_orig _ _ _ B), (IH zs eq_refl). reflexivity.
  Qed.

  Lemma done_described : forall sorter st cs bs, Done sorter st cs -> mapM (describe_house same names st) (house_codes st) = Ok bs ->
    described cs (house_number st) (meter_number st) names same bs.
  Proof.
    intros sorter st cs bs D E. unfold described. pose proof (describe_houses_orig _ _ _ E) as O. rewrite O.
    pose proof D as (H & HH & I). split; [apply (I_nodup _ _ _ I)|]. split.
    - intros h. rewrite (I_houses _ _ _ I). apply HH.
    - intros n h ms apps B. destruct (mapM_in _ _ _ E _ B) as (h' & _ & Q). pose proof (describe_house_orig _ _ _ Q) as Q'. cbn in Q'. subst h'.
      unfold describe_house in Q. unfold house_number at 1. destruct (index_of h (house_codes st)) as [i|] eqn:X; cbn [bind] in Q; [|discriminate].
      destruct (lookup h (appliance_codes st)) as [l|] eqn:L; [|discriminate]. destruct (describe same names l l [] []) as [[M A]|] eqn:DD; cbn [bind] in Q; [|discriminate].
      cbn [fst snd] in Q. injection Q as Q1 Q2 Q3. subst n M A. split; [reflexivity|]. destruct (I_known _ _ _ I h l L) as (_ & N & Ev).
      destruct (describe_ok l [] [] [] ms apps N DD) as (X1 & X2 & X3 & X4). cbn [length List.app map] in *.
      assert (Mt : forall a j, nth_error l j = Some a -> meter_number st h a = (j + 1)%nat /\ together cs h a).
      { intros a j J. split.
        - unfold meter_number. rewrite L. rewrite (proj2 (index_nth a l j N) J). reflexivity.
        - apply (of_event_flat sorter). apply Ev. eapply nth_error_In. exact J. }
      assert (Tg : forall a, together cs h a -> exists j, nth_error l j = Some a).
      { intros a T. apply In_nth_error. apply Ev. apply of_event_flat. exact T. }
      split; [|split; [congruence|split]].
      + intros m. rewrite X1, in_map_iff. split.
        * intros (j & <- & J). apply in_seq in J. destruct J as [_ J]. cbn in J. apply prefix_nth in J. destruct J as [J1 J2].
          destruct (nth_error l j) as [a|] eqn:Ja; [|apply nth_error_Some in J1; congruence]. exists a.
          destruct (Mt a j Ja) as [Ma Ta]. split; [exact Ta|]. split; [lia|]. intros a' T' Le. destruct (Tg a' T') as [j' Ja'].
          destruct (Mt a' j' Ja') as [Ma' _]. apply (J2 j' a'); [lia | exact Ja'].
        * intros (a & T & -> & All). destruct (Tg a T) as [j Ja]. destruct (Mt a j Ja) as [Ma _]. exists j. split; [lia|]. apply in_seq. split; [lia|].
          cbn. apply prefix_nth. split; [apply nth_error_Some; congruence|]. intros i' a' Le Ja'. destruct (Mt a' i' Ja') as [Ma' Ta']. apply All; [exact Ta' | lia].
      + intros x X5. destruct (X3 x X5) as [[]|(j & a & Ja & Mx & Lx)]. exists a. destruct (Mt a j Ja) as [Ma Ta]. split; [exact Ta|]. split; [lia | exact Lx].
      + apply X4. intros [|? ?] x l2 F; discriminate.
  Qed.
End M.

(** * Whole conversions *)
Section W.
  Variable sorter : table -> table.
  Context {name type : Type}.
  Variable same : type -> type -> bool.
  Variable names : list (Z * (name * type)).

  (** The tables and the metadata. *)
  Lemma conversion : forall limit fs, Forall timed (chunks limit fs) ->
    exists s bs e building meter, convert_hes sorter same false names limit (readable fs) = (s, bs, e) /\
      numbering (chunks limit fs) building meter /\ holds (chunks limit fs) building meter s (content sorter (chunks limit fs)) /\
      (forall b, bs = Some b -> e = None /\ described (chunks limit fs) building meter names same b) /\ (bs = None -> e <> None).
  Proof.
    intros limit fs T. destruct (done_files sorter fs limit empty [] T (done_empty sorter)) as (st & E & D). cbn [List.app] in D.
    unfold convert_hes. rewrite E.
    destruct (mapM (describe_house same names st) (house_codes st)) as [bs|e] eqn:B.
    - exists (tables st), (Some bs), None, (house_number st), (meter_number st). split; [reflexivity|]. split; [eapply done_numbering; exact D|].
      split; [apply done_holds; exact D|]. split; [|discriminate]. intros b [= <-]. split; [reflexivity|]. eapply done_described; eassumption.
    - exists (tables st), None, (Some e), (house_number st), (meter_number st). split; [reflexivity|]. split; [eapply done_numbering; exact D|].
      split; [apply done_holds; exact D|]. split; discriminate.
  Qed.

  (** One appliance in each chunk. *)
  Lemma own : forall h a c, (forall r r', In r c -> In r' c -> code r = code r') -> has_code a c = true -> of_house h c = of_appliance h a c.
  Proof.
    intros h a c One A. unfold of_house, of_appliance. f_equal. apply filter_ext_in. intros r R.
    unfold has_code in A. apply existsb_exists in A. destruct A as (r' & R' & A). apply Z.eqb_eq in A.
    rewrite (One r r' R R'), A, Z.eqb_refl, andb_true_r. reflexivity.
  Qed.
  Lemma none_of : forall h a c, has_code a c = false \/ has_house h c = false -> of_appliance h a c = [].
  Proof.
    intros h a c A. unfold of_appliance. replace (filter (fun r => (house r =? h) && (code r =? a)) c) with (@nil row); [reflexivity|].
    symmetry. destruct (filter (fun r => (house r =? h) && (code r =? a)) c) as [|r l] eqn:E; [reflexivity|]. exfalso.
    assert (R : In r (filter (fun r => (house r =? h) && (code r =? a)) c)) by (rewrite E; left; reflexivity).
    apply filter_In in R. destruct R as [R K]. apply andb_prop in K. destruct K as [K1 K2]. destruct A as [A|A].
    - apply not_true_iff_false in A. apply A. apply existsb_exists. exists r. auto.
    - apply not_true_iff_false in A. apply A. apply existsb_exists. exists r. auto.
  Qed.
  Lemma content_own : forall cs h a, sorts sorter -> (forall c r r', In c cs -> In r c -> In r' c -> code r = code r') ->
    content sorter cs h a = flat_map (fun c => sorter (of_appliance h a c)) cs.
  Proof.
    intros cs h a S1 One. unfold content. rewrite !flat_map_concat_map. f_equal. apply map_ext_in. intros c C.
    assert (Nil : sorter [] = []) by (destruct (S1 []) as [P _]; apply Permutation_sym, Permutation_nil in P; exact P).
    destruct (has_code a c) eqn:A; [|rewrite andb_false_r, none_of by auto; symmetry; exact Nil].
    destruct (has_house h c) eqn:H; [|rewrite none_of by auto; symmetry; exact Nil]. cbn. f_equal. apply own; [|exact A].
    intros r r'. apply (One c r r' C).
  Qed.

  (** Several appliances in a chunk. *)
  Lemma content_all : forall cs h a c r t, sorts sorter -> In c cs -> has_code a c = true -> In r c -> house r = h -> moment r = Some t ->
    In (t, 10 * data r) (content sorter cs h a).
  Proof.
    intros cs h a c r t S1 C A R H M. unfold content. apply in_flat_map. exists c. split; [exact C|].
    rewrite A. replace (has_house h c) with true.
    - cbn [andb]. destruct (S1 (of_house h c)) as [P _]. apply (Permutation_in _ (Permutation_sym P)). unfold of_house. apply in_flat_map.
      exists r. split; [apply filter_In; split; [exact R | rewrite H; apply Z.eqb_refl]|]. unfold reading. rewrite M. left. reflexivity.
    - symmetry. apply existsb_exists. exists r. split; [exact R | rewrite H; apply Z.eqb_refl].
  Qed.

  Lemma interrupted : forall fs cs e rest more, Forall timed (chunks None fs) -> Forall timed cs ->
    exists s bs e', convert_hes sorter same false names None (readable (fs ++ [Some cs])) = (s, bs, e') /\
      convert_hes sorter same false names None (readable fs ++ Some (map Ok cs ++ Err e :: rest) :: more) = (s, None, Some e).
  Proof.
    intros fs cs e rest more T1 T2. destruct (done_files sorter fs None empty [] T1 (done_empty sorter)) as (st & E & D).
    destruct (done_chunks sorter cs None 0 st _ ltac:(lia) T2 D) as (st2 & E2 & D2).
    unfold convert_hes, readable. rewrite map_app. fold (readable fs). rewrite !do_files_app, E. cbn [map option_map do_files].
    rewrite do_chunks_stop by exact T2. rewrite E2. cbn [fst snd].
    destruct (mapM (describe_house same names st2) (house_codes st2)) as [bs|e']; eexists _, _, _; (split; reflexivity).
  Qed.

  (** Times that cannot be read. *)
  Lemma untimed_row : forall c, ~ timed c -> mapM convert_row c = Err ValueError.
  Proof.
    intros c. induction c as [|r c IH]; intros N; [exfalso; apply N; constructor|]. cbn [mapM]. unfold convert_row at 1.
    destruct (moment r) as [t|] eqn:M; [|reflexivity]. cbn [bind]. rewrite IH; [reflexivity|]. intros K. apply N. constructor; [congruence | exact K].
  Qed.
  Lemma untimed : forall fs cs c rest more, Forall timed (chunks None fs) -> Forall timed cs -> ~ timed c ->
    exists s bs e', convert_hes sorter same false names None (readable (fs ++ [Some cs])) = (s, bs, e') /\
      convert_hes sorter same false names None (readable fs ++ Some (map Ok cs ++ Ok c :: rest) :: more) = (s, None, Some ValueError).
  Proof.
    intros fs cs c rest more T1 T2 N. destruct (done_files sorter fs None empty [] T1 (done_empty sorter)) as (st & E & D).
    destruct (done_chunks sorter cs None 0 st _ ltac:(lia) T2 D) as (st2 & E2 & D2).
    unfold convert_hes, readable. rewrite map_app. fold (readable fs). rewrite !do_files_app, E. cbn [map option_map do_files].
    assert (K : forall cs i st, Forall timed cs -> do_chunks sorter None i (map Ok cs ++ Ok c :: rest) st =
      match do_chunks sorter None i (map Ok cs) st with (st, None) => (st, Some ValueError) | (st, Some x) => (st, Some x) end).
    { clear - N. induction cs as [|k cs IH]; intros i st T; cbn [map List.app do_chunks].
      - unfold do_chunk. rewrite (untimed_row c N). reflexivity.
      - inversion T; subst. destruct (do_chunk sorter st k); [|reflexivity]. apply IH. assumption. }
    rewrite (K cs 0 st T2), E2. 
    destruct (mapM (describe_house same names st2) (house_codes st2)) as [bs|e']; eexists _, _, _; (split; reflexivity).
  Qed.
End W.
