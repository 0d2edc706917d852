From Verif Require Import Base GroupModel GroupSpec.
From Coq Require Import Permutation Lia.
Open Scope nat_scope.

(** Induction over nested lists. *)
Fixpoint node_rect' (P : node -> Prop) (HL : forall i b d s, P (Leaf i b d s)) (HG : forall n ms ds, Forall P ms -> Forall P ds -> P (Group n ms ds)) (x : node) : P x :=
  match x with
  | Leaf i b d s => HL i b d s
  | Group n ms ds =>
      HG n ms ds
        ((fix go l : Forall P l := match l with [] => Forall_nil P | y :: l' => Forall_cons y (node_rect' P HL HG y) (go l') end) ms)
        ((fix go l : Forall P l := match l with [] => Forall_nil P | y :: l' => Forall_cons y (node_rect' P HL HG y) (go l') end) ds)
  end.
Fixpoint hkey_rect' (P : hkey -> Prop) (HL : forall i b d, P (HLeaf i b d)) (HG : forall n ms ds, Forall P ms -> Forall P ds -> P (HGroup n ms ds)) (x : hkey) : P x :=
  match x with
  | HLeaf i b d => HL i b d
  | HGroup n ms ds =>
      HG n ms ds
        ((fix go l : Forall P l := match l with [] => Forall_nil P | y :: l' => Forall_cons y (hkey_rect' P HL HG y) (go l') end) ms)
        ((fix go l : Forall P l := match l with [] => Forall_nil P | y :: l' => Forall_cons y (hkey_rect' P HL HG y) (go l') end) ds)
  end.

Definition hall := fix all (l l' : list hkey) {struct l} : bool :=
    match l, l' with
    | [], [] => true
    | a :: l1, a' :: l1' => hkey_eqb a a' && all l1 l1'
    | _, _ => false
    end.
Lemma hkey_eqb_spec x : forall y, hkey_eqb x y = true <-> x = y.
Proof.
  induction x as [i b d|n ms ds IHm IHd] using hkey_rect'; intros [i' b' d'|n' ms' ds']; cbn; try (split; discriminate).
  - rewrite !andb_true_iff, !Nat.eqb_eq. split; [intros [[-> ->] ->]; reflexivity|intros X; injection X; auto].
  - assert (A : forall l, Forall (fun x => forall y, hkey_eqb x y = true <-> x = y) l -> forall l', hall l l' = true <-> l = l').
    { induction 1 as [|a l H _ IH]; intros [|a' l']; cbn; try (split; discriminate); [split; reflexivity|]. rewrite andb_true_iff, H, IH. split; [intros [-> ->]; reflexivity|intros X; injection X; auto]. }
    fold hall. rewrite !andb_true_iff, Nat.eqb_eq. change ((fix all (l l' : list hkey) {struct l} : bool := match l with [] => match l' with [] => true | _ :: _ => false end | a :: l1 => match l' with [] => false | a' :: l1' => hkey_eqb a a' && all l1 l1' end end)) with hall.
    rewrite (A ms IHm), (A ds IHd). split; [intros [[-> ->] ->]; reflexivity|intros X; injection X; auto].
Qed.

(** Sets. *)
Lemma in_set_spec x s : in_set x s = true <-> In (hash x) (map hash s).
Proof.
  unfold in_set. rewrite existsb_exists, in_map_iff. split; intros (y & H1 & H2).
  - apply hkey_eqb_spec in H2. eauto.
  - exists y. split; [exact H2|]. apply hkey_eqb_spec. auto.
Qed.
Lemma onto_spec l : forall seen, NoDup (map hash seen) ->
  NoDup (map hash (py_set_onto seen l)) /\ (forall h, In h (map hash (py_set_onto seen l)) <-> In h (map hash seen) \/ In h (map hash l)) /\ (forall x, In x (py_set_onto seen l) -> In x seen \/ In x l).
Proof.
  induction l as [|x l IH]; intros seen ND; cbn [py_set_onto].
  - split; [exact ND|]. split; [intros h; cbn; tauto|auto].
  - change (existsb (fun y : node => hkey_eqb (hash x) (hash y)) seen) with (in_set x seen). destruct (in_set x seen) eqn:E.
    + apply in_set_spec in E. destruct (IH seen ND) as (A & B & C). split; [exact A|]. split.
      * intros h. rewrite B. cbn. split; [tauto|]. intros [H|[<-|H]]; auto.
      * intros y Hy. destruct (C y Hy); cbn; auto.
    + assert (N : ~ In (hash x) (map hash seen)) by (rewrite <- in_set_spec; congruence).
      assert (ND' : NoDup (map hash (seen ++ [x]))).
      { rewrite map_app. cbn. apply Permutation_NoDup with (l := hash x :: map hash seen); [apply Permutation_cons_append|constructor; assumption]. }
      destruct (IH (seen ++ [x]) ND') as (A & B & C). split; [exact A|]. split.
      * intros h. rewrite B, map_app, in_app_iff. cbn. tauto.
      * intros y Hy. destruct (C y Hy) as [H|H]; [rewrite in_app_iff in H; cbn in H|]; cbn; tauto.
Qed.
Lemma set_nodup l : NoDup (map hash (py_set l)).
Proof. apply (onto_spec l []). constructor. Qed.
Lemma set_hashes l h : In h (map hash (py_set l)) <-> In h (map hash l).
Proof. destruct (onto_spec l [] (NoDup_nil _)) as (_ & B & _). unfold py_set. rewrite B. cbn. tauto. Qed.
Lemma set_in l x : In x (py_set l) -> In x l.
Proof. intros H. destruct (onto_spec l [] (NoDup_nil _)) as (_ & _ & C). destruct (C x H) as [[]|]; assumption. Qed.

(** Equality. *)
Lemma eq_group n ms ds n' ms' ds' : node_eq (Group n ms ds) (Group n' ms' ds') = true <-> forall h, In h (map hash ms) <-> In h (map hash ms').
Proof.
  cbn [node_eq]. rewrite andb_true_iff, Nat.eqb_eq, forallb_forall. split.
  - intros [L F]. assert (I : incl (map hash (py_set ms)) (map hash (py_set ms'))).
    { intros h Hh. apply in_map_iff in Hh. destruct Hh as (x & <- & Hx). apply in_set_spec. apply F. exact Hx. }
    assert (I' : incl (map hash (py_set ms')) (map hash (py_set ms))).
    { apply NoDup_length_incl; [apply set_nodup|rewrite !map_length; lia|exact I]. }
    intros h. rewrite <- (set_hashes ms h), <- (set_hashes ms' h). split; [apply I|apply I'].
  - intros H. split.
    + rewrite <- (map_length hash (py_set ms)), <- (map_length hash (py_set ms')). apply Nat.le_antisymm; apply NoDup_incl_length; try apply set_nodup; intros h; rewrite !set_hashes; apply H.
    + intros x Hx. apply in_set_spec. rewrite set_hashes, <- H, <- set_hashes. apply in_map. exact Hx.
Qed.
Lemma eq_leaf i b d s i' b' d' s' : node_eq (Leaf i b d s) (Leaf i' b' d' s') = true <-> (i, b, d) = (i', b', d').
Proof. cbn. rewrite !andb_true_iff, !Nat.eqb_eq. split; [intros [[-> ->] ->]; reflexivity|intros X; injection X; auto]. Qed.
Lemma eq_refl_node x : node_eq x x = true.
Proof. destruct x; [apply eq_leaf; reflexivity|apply eq_group; tauto]. Qed.
Lemma eq_sym_node x y : node_eq x y = node_eq y x.
Proof.
  apply Bool.eq_true_iff_eq. destruct x, y; try (cbn; tauto).
  - rewrite !eq_leaf. split; congruence.
  - rewrite !eq_group. split; intros H h; symmetry; apply H.
Qed.
Lemma eq_trans_node x y z : node_eq x y = true -> node_eq y z = true -> node_eq x z = true.
Proof.
  destruct x, y, z; try discriminate.
  - rewrite !eq_leaf. congruence.
  - rewrite !eq_group. intros H H' h. rewrite H. apply H'.
Qed.
Lemma hash_eq x y : hash x = hash y -> node_eq x y = true.
Proof.
  destruct x as [i b d s|n ms ds], y as [i' b' d' s'|n' ms' ds']; cbn [hash]; intros H; try discriminate.
  - apply eq_leaf. congruence.
  - injection H as _ H _. apply eq_group. rewrite H. tauto.
Qed.

(** mains and submeters *)
Lemma filter_interleaves {A} (f : A -> bool) l : interleaves (filter f l) (filter (fun x => negb (f x)) l) l.
Proof. induction l as [|x l IH]; cbn; [constructor|]. destruct (f x); cbn; constructor; exact IH. Qed.
Lemma mains_ok g r : mains g = Ok r -> mains_meters r = filter is_site (g_meters g).
Proof. unfold mains. destruct (several_buildings g); [discriminate|]. intros H. injection H as <-. destruct (filter is_site (g_meters g)) as [|x [|y l]]; reflexivity. Qed.
Lemma is_site_iff x : is_site x = true <-> exists y, leaf_of y x /\ site_of y = true.
Proof.
  induction x as [i b d s|n ms ds IH _] using node_rect'; cbn [is_site].
  - split; [intros H; exists (Leaf i b d s); split; [constructor|exact H]|]. intros (y & H & S). inversion H; subst. exact S.
  - rewrite existsb_exists. rewrite Forall_forall in IH. split.
    + intros (x & Hx & S). apply (IH x Hx) in S. destruct S as (y & L & S). exists y. split; [eapply leaf_in; eassumption|exact S].
    + intros (y & L & S). inversion L; subst. exists y0. split; [assumption|]. apply IH; [assumption|]. eauto.
Qed.

(** Buildings *)
Definition bmany v := if bval_dec v BMany then true else false.
Lemma simplest_many l : Forall (fun v => v <> BNone) l -> (simplest l = BMany <-> exists v w, In v l /\ In w l /\ (v = BMany \/ v <> w)).
Proof.
  intros HN. unfold simplest. fold bmany. destruct (existsb bmany l) eqn:E.
  - split; [|reflexivity]. intros _. apply existsb_exists in E. destruct E as (v & Hv & B). unfold bmany in B. destruct (bval_dec v BMany); [|discriminate]. exists v, v. auto.
  - assert (NM : forall v, In v l -> v <> BMany).
    { intros v Hv ->. assert (X : existsb bmany l = true) by (apply existsb_exists; exists BMany; split; [exact Hv|reflexivity]). congruence. }
    split.
    + destruct (nodup bval_dec l) as [|v [|w r]] eqn:D; intros H; try discriminate.
      * exfalso. apply (NM v); [|exact H]. apply (nodup_In bval_dec). rewrite D. left. reflexivity.
      * exists v, w. assert (ND := NoDup_nodup bval_dec l). rewrite D in ND. inversion_clear ND as [|a b Q _]. split; [apply (nodup_In bval_dec); rewrite D; left; reflexivity|]. split; [apply (nodup_In bval_dec); rewrite D; right; left; reflexivity|]. right. intros ->. apply Q. left. reflexivity.
    + intros (v & w & Hv & Hw & [->|N]); [exfalso; apply (NM BMany); [exact Hv|reflexivity]|].
      apply (nodup_In bval_dec) in Hv. apply (nodup_In bval_dec) in Hw. destruct (nodup bval_dec l) as [|a [|b r]]; [destruct Hv| |reflexivity].
      exfalso. destruct Hv as [<-|[]]; destruct Hw as [<-|[]]. congruence.
Qed.
Lemma simplest_one l b : simplest l = BOne b -> l <> [] /\ forall v, In v l -> v = BOne b.
Proof.
  unfold simplest. fold bmany. destruct (existsb bmany l); [discriminate|]. destruct (nodup bval_dec l) as [|v [|w r]] eqn:D; intros H; try discriminate. subst v. split.
  - intros ->. discriminate.
  - intros v Hv. apply (nodup_In bval_dec) in Hv. rewrite D in Hv. destruct Hv as [<-|[]]. reflexivity.
Qed.
Lemma simplest_none l : simplest l = BNone -> Forall (fun v => v <> BNone) l -> l = [].
Proof.
  unfold simplest. fold bmany. destruct (existsb bmany l); [discriminate|]. destruct (nodup bval_dec l) as [|v [|w r]] eqn:D; intros H F; try discriminate.
  - destruct l as [|v l]; [reflexivity|]. exfalso. assert (X : In v (nodup bval_dec (v :: l))) by (apply nodup_In; left; reflexivity). rewrite D in X. destruct X.
  - subst v. exfalso. rewrite Forall_forall in F. apply (F BNone); [|reflexivity]. apply (nodup_In bval_dec). rewrite D. left. reflexivity.
Qed.
Definition leaf_building x b := exists y, leaf_of y x /\ building_of y = Some b.
Lemma building_full x : full x ->
  match building x with
  | BNone => False
  | BOne b => forall b', leaf_building x b' <-> b' = b
  | BMany => exists b b', leaf_building x b /\ leaf_building x b' /\ b <> b'
  end.
Proof.
  induction x as [i b d s|n ms ds IH _] using node_rect'; intros HF; cbn [building].
  - intros b'. unfold leaf_building. split; [intros (y & L & B); inversion L; subst; cbn in B; congruence|]. intros ->. exists (Leaf i b d s). split; [constructor|reflexivity].
  - inversion HF as [|n' ms' ds' NE FM]; subst. rewrite Forall_forall in IH, FM.
    assert (NN : Forall (fun v => v <> BNone) (map building ms)).
    { rewrite Forall_map, Forall_forall. intros x Hx E. specialize (IH x Hx (FM x Hx)). rewrite E in IH. exact IH. }
    assert (UP : forall x b, In x ms -> leaf_building x b -> leaf_building (Group n ms ds) b).
    { intros x b Hx (y & L & B). exists y. split; [eapply leaf_in; eassumption|exact B]. }
    destruct (simplest (map building ms)) as [|b|] eqn:E.
    + apply simplest_none in E; [|exact NN]. apply NE. destruct ms; [reflexivity|discriminate].
    + apply simplest_one in E. destruct E as [_ E].
      assert (EB : forall x, In x ms -> building x = BOne b) by (intros x Hx; apply E; apply in_map; exact Hx).
      intros b'. split.
      * intros (y & L & B). inversion L as [|x' n' ms'' ds'' z Hz Lz]; subst. specialize (IH z Hz (FM z Hz)). rewrite (EB z Hz) in IH. apply IH. exists y. auto.
      * intros ->. destruct ms as [|x ms]; [congruence|]. apply (UP x); [left; reflexivity|]. specialize (IH x (or_introl eq_refl) (FM x (or_introl eq_refl))). rewrite (EB x (or_introl eq_refl)) in IH. apply IH. reflexivity.
    + apply simplest_many in E; [|exact NN]. destruct E as (v & w & Hv & Hw & C). apply in_map_iff in Hv, Hw. destruct Hv as (x & <- & Hx). destruct Hw as (y & <- & Hy).
      assert (IX := IH x Hx (FM x Hx)). assert (IY := IH y Hy (FM y Hy)).
      assert (M : building x = BMany \/ building y = BMany -> exists b b', leaf_building (Group n ms ds) b /\ leaf_building (Group n ms ds) b' /\ b <> b').
      { intros [B|B]; [rewrite B in IX; destruct IX as (b & b' & P & Q & R)|rewrite B in IY; destruct IY as (b & b' & P & Q & R)]; exists b, b'; repeat split; eauto. }
      destruct (building x) as [|b|] eqn:BX; [destruct IX| |apply M; auto]. destruct (building y) as [|b'|] eqn:BY; [destruct IY| |apply M; auto].
      destruct C as [C|C]; [discriminate|]. exists b, b'. repeat split; [apply (UP x b Hx); apply IX; reflexivity|apply (UP y b' Hy); apply IY; reflexivity|congruence].
Qed.
Lemma several_iff g : Forall full (g_meters g) -> several_buildings g = true <-> exists x y b b', leaf_in_group x g /\ leaf_in_group y g /\ building_of x = Some b /\ building_of y = Some b' /\ b <> b'.
Proof.
  intros HF. unfold several_buildings. destruct (g_meters g) as [|x0 ms0] eqn:EM.
  - cbn. split; [discriminate|]. intros (x & y & b & b' & (z & Hz & _) & _). rewrite EM in Hz. destruct Hz.
  - rewrite <- EM in *. assert (F : full (Group 0 (g_meters g) [])) by (constructor; [rewrite EM; discriminate|exact HF]).
    assert (B := building_full _ F). cbn [building] in B.
    assert (LG : forall x, leaf_in_group x g <-> leaf_of x (Group 0 (g_meters g) [])).
    { intros x. split; [intros (y & Hy & L); eapply leaf_in; eassumption|]. intros L. inversion L; subst. eexists. eauto. }
    destruct (simplest (map building (g_meters g))) as [|b|].
    + destruct B.
    + split; [discriminate|]. intros (x & y & b1 & b2 & X & Y & BX & BY & N). exfalso. apply N. rewrite (proj1 (B b1)), (proj1 (B b2)); [reflexivity| |].
      * exists y. split; [apply LG; exact Y|exact BY].
      * exists x. split; [apply LG; exact X|exact BX].
    + split; [|reflexivity]. intros _. destruct B as (b & b' & (x & X & BX) & (y & Y & BY) & N). exists x, y, b, b'. rewrite !LG. auto.
Qed.

(** use_alternative_mains *)
Lemma copies_app x l l' : copies x (l ++ l') = copies x l + copies x l'.
Proof. unfold copies. rewrite filter_app, app_length. reflexivity. Qed.
Lemma copies_cons x y l : copies x (y :: l) = (if node_eq x y then 1 else 0) + copies x l.
Proof. unfold copies. cbn. destruct (node_eq x y); reflexivity. Qed.
Lemma copies_ext x y z : node_eq x y = true -> node_eq z x = node_eq z y.
Proof. intros H. apply Bool.eq_true_iff_eq. split; intros E; eapply eq_trans_node; [exact E|exact H|exact E|rewrite eq_sym_node; exact H]. Qed.
Lemma remove_ok x l : copies x l > 0 -> exists r, remove_node x l = Ok r /\ (forall z, copies z l = (if node_eq z x then 1 else 0) + copies z r) /\ exists y, node_eq y x = true /\ Permutation l (y :: r).
Proof.
  induction l as [|y l IH]; [cbn; lia|]. rewrite copies_cons, eq_sym_node. intros H. cbn [remove_node]. destruct (node_eq y x) eqn:E.
  - exists l. split; [reflexivity|]. split; [|exists y; auto]. intros z. rewrite copies_cons, (copies_ext y x z E). reflexivity.
  - destruct (IH H) as (r & -> & C & y' & Ey & P). cbn [bind]. exists (y :: r). split; [reflexivity|]. split.
    + intros z. rewrite !copies_cons, C. lia.
    + exists y'. split; [exact Ey|]. rewrite P. apply perm_swap.
Qed.
Lemma in_copies x l : In x l -> copies x l > 0.
Proof. induction l as [|y l IH]; [intros []|]. rewrite copies_cons. intros [<-|H]; [rewrite eq_refl_node; lia|specialize (IH H); lia]. Qed.

Lemma disable_loop l : forall g, (forall z, copies z l <= copies z (g_meters g)) -> exists g', foldM disable l g = Ok g' /\
  g_disabled g' = g_disabled g ++ l /\ (forall z, copies z (g_meters g) = copies z l + copies z (g_meters g')).
Proof.
  induction l as [|x l IH]; intros g H; cbn [foldM].
  - exists g. rewrite app_nil_r. repeat split; auto.
  - unfold disable at 1. destruct (remove_ok x (g_meters g)) as (r & -> & C & _). { specialize (H x). rewrite copies_cons, eq_refl_node in H. cbn in H. lia. }
    cbn [bind]. destruct (IH (mkGroup r (g_disabled g ++ [x]))) as (g' & E & D & M).
    { intros z. cbn [g_meters g_disabled]. specialize (H z). rewrite copies_cons, (C z) in H. destruct (node_eq z x); lia. }
    exists g'. split; [exact E|]. cbn [g_meters g_disabled] in D, M. split; [rewrite D, <- app_assoc; reflexivity|]. intros z. rewrite (C z), copies_cons, (M z). lia.
Qed.
Lemma enable_loop l : forall g, (forall z, copies z l <= copies z (g_disabled g)) -> exists g', foldM enable l g = Ok g' /\
  g_meters g' = g_meters g ++ l /\ (forall z, copies z (g_disabled g) = copies z l + copies z (g_disabled g')).
Proof.
  induction l as [|x l IH]; intros g H; cbn [foldM].
  - exists g. rewrite app_nil_r. repeat split; auto.
  - unfold enable at 1. destruct (remove_ok x (g_disabled g)) as (r & -> & C & _). { specialize (H x). rewrite copies_cons, eq_refl_node in H. cbn in H. lia. }
    cbn [bind]. destruct (IH (mkGroup (g_meters g ++ [x]) r)) as (g' & E & D & M).
    { intros z. cbn [g_meters g_disabled]. specialize (H z). rewrite copies_cons, (C z) in H. destruct (node_eq z x); lia. }
    exists g'. split; [exact E|]. cbn [g_meters g_disabled] in D, M. split; [rewrite D, <- app_assoc; reflexivity|]. intros z. rewrite (C z), copies_cons, (M z). lia.
Qed.
Lemma copies_filter f z l : copies z (filter f l) <= copies z l.
Proof. induction l as [|x l IH]; cbn [filter]; [lia|]. rewrite (copies_cons z x l). destruct (f x); rewrite ?copies_cons; [destruct (node_eq z x); lia|lia]. Qed.

Lemma alternative_thm g : filter is_site (g_disabled g) <> [] -> exists g', use_alternative_mains g = Ok g' /\
  forall z, copies z (g_meters g' ++ g_disabled g') = copies z (g_meters g ++ g_disabled g).
Proof.
  intros H. unfold use_alternative_mains. destruct (filter is_site (g_disabled g)) as [|a l] eqn:EA; [congruence|]. rewrite <- EA. clear H a l EA.
  destruct (disable_loop (filter is_site (g_meters g)) g) as (g1 & -> & D1 & M1); [intros z; apply copies_filter|]. cbn [bind].
  destruct (enable_loop (filter is_site (g_disabled g)) g1) as (g2 & -> & M2 & D2). { intros z. rewrite D1, copies_app. assert (X := copies_filter is_site z (g_disabled g)). lia. }
  exists g2. split; [reflexivity|]. intros z. specialize (M1 z). specialize (D2 z). rewrite D1, copies_app in D2. rewrite !copies_app, M2, copies_app. lia.
Qed.

(** When equal nodes are identical. *)
Lemma remove_exact x l r : remove_node x l = Ok r -> exists y l1 l2, l = l1 ++ y :: l2 /\ r = l1 ++ l2 /\ node_eq y x = true.
Proof.
  revert r. induction l as [|y l IH]; intros r; [discriminate|]. cbn. destruct (node_eq y x) eqn:E.
  - intros H. injection H as <-. exists y, [], l. auto.
  - destruct (remove_node x l) as [r'|]; [|discriminate]. intros H. injection H as <-. destruct (IH r' eq_refl) as (z & l1 & l2 & -> & -> & Z). exists z, (y :: l1), l2. auto.
Qed.
Lemma disable_perm l : forall g g', identified (g_meters g ++ l) -> foldM disable l g = Ok g' ->
  Permutation (g_meters g) (l ++ g_meters g') /\ (forall f, Forall (fun x => f x = true) l -> filter (fun x => negb (f x)) (g_meters g') = filter (fun x => negb (f x)) (g_meters g)).
Proof.
  induction l as [|x l IH]; intros g g' HI E; cbn [foldM] in E.
  - injection E as <-. split; [reflexivity|auto].
  - unfold disable at 1 in E. destruct (remove_node x (g_meters g)) as [r|] eqn:R; [|discriminate]. cbn [bind] in E. apply remove_exact in R. destruct R as (y & l1 & l2 & EM & -> & Ey).
    assert (y = x). { apply HI; [rewrite EM, !in_app_iff; cbn; auto|rewrite in_app_iff; right; left; reflexivity|exact Ey]. } subst y.
    assert (HI' : identified ((l1 ++ l2) ++ l)). { intros a b Ha Hb. apply HI; rewrite EM; [clear Hb; rewrite !in_app_iff in *; cbn; tauto|clear Ha; rewrite !in_app_iff in *; cbn; tauto]. }
    destruct (IH (mkGroup (l1 ++ l2) (g_disabled g ++ [x])) g' HI' E) as [P F]. cbn [g_meters g_disabled] in P, F. split.
    + rewrite EM. rewrite <- Permutation_middle. cbn. constructor. exact P.
    + intros f HF. inversion_clear HF as [|a b Hx Hl]. rewrite (F f Hl), EM, !filter_app. cbn. rewrite Hx. reflexivity.
Qed.
Lemma enable_perm l : forall g g', identified (g_disabled g ++ l) -> foldM enable l g = Ok g' ->
  Permutation (g_disabled g) (l ++ g_disabled g') /\ (forall f, Forall (fun x => f x = true) l -> filter (fun x => negb (f x)) (g_disabled g') = filter (fun x => negb (f x)) (g_disabled g)).
Proof.
  induction l as [|x l IH]; intros g g' HI E; cbn [foldM] in E.
  - injection E as <-. split; [reflexivity|auto].
  - unfold enable at 1 in E. destruct (remove_node x (g_disabled g)) as [r|] eqn:R; [|discriminate]. cbn [bind] in E. apply remove_exact in R. destruct R as (y & l1 & l2 & EM & -> & Ey).
    assert (y = x). { apply HI; [rewrite EM, !in_app_iff; cbn; auto|rewrite in_app_iff; right; left; reflexivity|exact Ey]. } subst y.
    assert (HI' : identified ((l1 ++ l2) ++ l)). { intros a b Ha Hb. apply HI; rewrite EM; [clear Hb; rewrite !in_app_iff in *; cbn; tauto|clear Ha; rewrite !in_app_iff in *; cbn; tauto]. }
    destruct (IH (mkGroup (g_meters g ++ [x]) (l1 ++ l2)) g' HI' E) as [P F]. cbn [g_meters g_disabled] in P, F. split.
    + rewrite EM. rewrite <- Permutation_middle. cbn. constructor. exact P.
    + intros f HF. inversion_clear HF as [|a b Hx Hl]. rewrite (F f Hl), EM, !filter_app. cbn. rewrite Hx. reflexivity.
Qed.
Lemma filter_all {A} (f : A -> bool) l : Forall (fun x => f x = true) (filter f l).
Proof. apply Forall_forall. intros x H. apply filter_In in H. tauto. Qed.
Lemma filter_perm {A} (f : A -> bool) l l' : Permutation l l' -> Permutation (filter f l) (filter f l').
Proof. induction 1; cbn; repeat destruct (f _); eauto using Permutation. Qed.
Lemma filter_split {A} (f : A -> bool) l : Permutation l (filter f l ++ filter (fun x => negb (f x)) l).
Proof. induction l as [|x l IH]; cbn; [constructor|]. destruct (f x); cbn; [constructor; exact IH|]. rewrite <- Permutation_middle. constructor. exact IH. Qed.
Lemma filter_none {A} (f : A -> bool) l : Forall (fun x => f x = true) l -> filter (fun x => negb (f x)) l = [].
Proof. induction 1 as [|x l H _ IH]; cbn; [reflexivity|]. rewrite H. exact IH. Qed.
Lemma filter_id {A} (f : A -> bool) l : Forall (fun x => f x = true) l -> filter f l = l.
Proof. induction 1 as [|x l H _ IH]; cbn; [reflexivity|]. rewrite H, IH. reflexivity. Qed.

Lemma alternative_exact g g' : identified (g_meters g ++ g_disabled g) -> use_alternative_mains g = Ok g' ->
  g_meters g' = filter (fun x => negb (is_site x)) (g_meters g) ++ filter is_site (g_disabled g) /\
  Permutation (g_disabled g') (filter (fun x => negb (is_site x)) (g_disabled g) ++ filter is_site (g_meters g)).
Proof.
  intros HI. unfold use_alternative_mains. destruct (filter is_site (g_disabled g)) as [|a l] eqn:EA; [discriminate|]. rewrite <- EA. clear a l EA. intros E.
  destruct (foldM disable (filter is_site (g_meters g)) g) as [g1|] eqn:E1; [|discriminate]. cbn [bind] in E.
  assert (SUB : forall f (l : list node) x, In x (filter f l) -> In x l) by (intros f l x H; apply filter_In in H; tauto).
  assert (I1 : identified (g_meters g ++ filter is_site (g_meters g))).
  { intros a b Ha Hb. rewrite in_app_iff in Ha, Hb. apply HI; rewrite in_app_iff; left; [destruct Ha as [Ha|Ha]; [exact Ha|apply (SUB _ _ _ Ha)]|destruct Hb as [Hb|Hb]; [exact Hb|apply (SUB _ _ _ Hb)]]. }
  destruct (disable_perm _ _ _ I1 E1) as [P1 F1].
  assert (D1 : g_disabled g1 = g_disabled g ++ filter is_site (g_meters g)).
  { destruct (disable_loop (filter is_site (g_meters g)) g) as (g1' & E1' & D1 & _); [intros z; apply copies_filter|]. rewrite E1 in E1'. injection E1' as <-. exact D1. }
  assert (I2 : identified (g_disabled g1 ++ filter is_site (g_disabled g))).
  { rewrite D1. intros a b Ha Hb. apply HI; rewrite !in_app_iff in *; [destruct Ha as [[Ha|Ha]|Ha]|destruct Hb as [[Hb|Hb]|Hb]]; try (apply SUB in Ha); try (apply SUB in Hb); auto. }
  destruct (enable_perm _ _ _ I2 E) as [P2 F2].
  assert (M2 : g_meters g' = g_meters g1 ++ filter is_site (g_disabled g)).
  { destruct (enable_loop (filter is_site (g_disabled g)) g1) as (g2' & E2' & M2 & _). { intros z. rewrite D1, copies_app. assert (X := copies_filter is_site z (g_disabled g)). lia. } rewrite E in E2'. injection E2' as <-. exact M2. }
  assert (S1 : Permutation (g_meters g1) (filter (fun x => negb (is_site x)) (g_meters g))).
  { apply Permutation_app_inv_l with (l := filter is_site (g_meters g)). rewrite <- P1. apply filter_split. }
  split.
  - rewrite M2. f_equal. rewrite <- (F1 is_site (filter_all _ _)). symmetry. apply filter_id. apply Forall_forall. intros x Hx. eapply Permutation_in in Hx; [|exact S1]. apply filter_In in Hx. tauto.
  - apply Permutation_app_inv_l with (l := filter is_site (g_disabled g)). rewrite <- P2, D1, app_assoc. apply Permutation_app_tail. apply filter_split.
Qed.

(** union *)
Lemma union_thm (order : list node -> list node) g g' u : (forall l, Permutation l (order l)) -> union order g (GroupArg g') = Ok u ->
  g_disabled u = [] /\ NoDup (map hash (g_meters u)) /\ (forall h, In h (map hash (g_meters u)) <-> In h (map hash (g_meters g)) \/ In h (map hash (g_meters g'))) /\ (forall x, In x (g_meters u) -> In x (g_meters g) \/ In x (g_meters g')).
Proof.
  intros HO E. cbn in E. injection E as <-. cbn [g_meters g_disabled]. split; [reflexivity|]. split; [|split].
  - apply Permutation_NoDup with (l := map hash (py_set (g_meters g ++ g_meters g'))); [apply Permutation_map; apply HO|apply set_nodup].
  - intros h. rewrite <- in_app_iff, <- map_app, <- (set_hashes (g_meters g ++ g_meters g') h). split; apply Permutation_in; apply Permutation_map; [symmetry|]; apply HO.
  - intros x Hx. rewrite <- in_app_iff. apply set_in. eapply Permutation_in; [symmetry; apply HO|exact Hx].
Qed.
Lemma hash_leaf x y : is_leaf x -> is_leaf y -> (hash x = hash y <-> node_eq x y = true).
Proof. destruct x, y; cbn [is_leaf]; try tauto. intros _ _. cbn [hash]. rewrite eq_leaf. split; congruence. Qed.
Lemma union_leaves (order : list node -> list node) g g' u : (forall l, Permutation l (order l)) -> Forall is_leaf (g_meters g) -> Forall is_leaf (g_meters g') -> union order g (GroupArg g') = Ok u ->
  forall x, copies x (g_meters u) = if Nat.ltb 0 (copies x (g_meters g ++ g_meters g')) then 1 else 0.
Proof.
  intros HO L L' E x. destruct (union_thm order g g' u HO E) as (_ & ND & H & I).
  assert (LU : forall y, In y (g_meters u) -> is_leaf y). { intros y Hy. rewrite Forall_forall in L, L'. destruct (I y Hy); auto. }
  assert (LA : forall y, In y (g_meters g ++ g_meters g') -> is_leaf y). { intros y Hy. rewrite Forall_forall in L, L'. rewrite in_app_iff in Hy. destruct Hy; auto. }
  assert (SET : forall h, In h (map hash (g_meters u)) <-> In h (map hash (g_meters g ++ g_meters g'))) by (intros h; rewrite H, map_app, in_app_iff; tauto).
  clear I H E L L'. revert ND LU SET LA. generalize (g_meters g ++ g_meters g') as a. generalize (g_meters u) as u'. intros u' a ND LU SET LA.
  assert (POS : forall l, copies x l > 0 <-> exists y, In y l /\ node_eq x y = true).
  { intros l. split.
    - induction l as [|y l IH]; [cbn; lia|]. rewrite copies_cons. destruct (node_eq x y) eqn:Exy; [intros _; exists y; cbn; auto|]. intros Hc. destruct IH as (z & Hz & Ez); [lia|]. exists z. cbn. auto.
    - intros (y & Hy & Ey). unfold copies. assert (F : In y (filter (node_eq x) l)) by (apply filter_In; auto). destruct (filter (node_eq x) l); [destruct F|cbn; lia]. }
  assert (LE : copies x u' <= 1).
  { clear SET POS. revert ND LU. induction u' as [|y u' IH]; intros ND LU; [cbn; lia|]. rewrite copies_cons. cbn in ND. inversion_clear ND as [|p q N ND']. specialize (IH ND' ltac:(intros z Hz; apply LU; right; exact Hz)). destruct (node_eq x y) eqn:Exy; [|lia].
    assert (Z : copies x u' = 0). { unfold copies. destruct (filter (node_eq x) u') as [|z r] eqn:F; [reflexivity|]. exfalso. apply N. assert (Hz : In z (filter (node_eq x) u')) by (rewrite F; left; reflexivity). apply filter_In in Hz. destruct Hz as [Hz Ez]. apply in_map_iff. exists z. split; [|exact Hz]. apply (hash_leaf z y); [apply LU; right; exact Hz|apply LU; left; reflexivity|]. rewrite eq_sym_node in Ez. eapply eq_trans_node; eassumption. }
    lia. }
  destruct (Nat.ltb 0 (copies x a)) eqn:B.
  - apply Nat.ltb_lt in B. apply POS in B. destruct B as (y & Hy & Ey). apply (in_map hash) in Hy as Hh. apply SET in Hh. apply in_map_iff in Hh. destruct Hh as (z & Ez & Hz). assert (P : copies x u' > 0). { apply POS. exists z. split; [exact Hz|]. eapply eq_trans_node; [exact Ey|]. apply hash_eq. auto. } lia.
  - apply Nat.ltb_ge in B. destruct (copies x u') as [|k] eqn:C; [reflexivity|]. exfalso. assert (P : copies x u' > 0) by lia. apply POS in P. destruct P as (y & Hy & Ey). apply (in_map hash) in Hy. apply SET in Hy. apply in_map_iff in Hy. destruct Hy as (z & Ez & Hz). assert (Q : copies x a > 0); [|lia]. apply POS. exists z. split; [exact Hz|]. eapply eq_trans_node; [exact Ey|]. apply hash_eq. auto.
Qed.
