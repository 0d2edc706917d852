(** Proofs about the import of a building's metadata. *)
From Coq Require Import Permutation ListDec.
From Verif Require Import Base GroupModel GroupSpec GroupProofs ImportModel ImportSpec.
Open Scope nat_scope.

Lemma nth_firstn {A} (l : list A) : forall k j, nth_error (firstn k l) j = if j <? k then nth_error l j else None.
Proof.
  induction l as [|x l IH]; intros [|k] [|j]; cbn [firstn nth_error]; try reflexivity; [destruct (_ <? _); reflexivity|]. rewrite IH. reflexivity.
Qed.

(** *** The layout, when no appliance is on the mains *)
Section Layout.
Variables (b d : nat) (elec : list meter_md).
Hypothesis ND : NoDup (map md_instance elec).
Notation leaf := (leaf_for b d).

Lemma declared_nil i (l : list meter_md) : ~ In i (map md_instance l) -> declared b d l i = [].
Proof.
  induction l as [|m l IH]; cbn; intros H; [reflexivity|]. destruct (Nat.eqb_spec (md_instance m) i); [tauto|]. apply IH. tauto.
Qed.
Lemma declared_in m l : NoDup (map md_instance l) -> In m l -> declared b d l (md_instance m) = [leaf m].
Proof.
  induction l as [|m' l IH]; cbn; intros N H; [destruct H|]. inversion N; subst. destruct H as [->|H].
  - rewrite Nat.eqb_refl. cbn. fold (declared b d l (md_instance m)). rewrite declared_nil by assumption. reflexivity.
  - destruct (Nat.eqb_spec (md_instance m') (md_instance m)) as [E|_].
    + exfalso. apply H2. rewrite E. exact (in_map md_instance _ _ H).
    + exact (IH H3 H).
Qed.
Lemma same_md m m' : In m elec -> In m' elec -> md_instance m = md_instance m' -> m = m'.
Proof.
  clear b d. revert ND. generalize elec. induction elec0 as [|x l IH]; cbn; intros N H H' E; [destruct H|]. inversion N; subst.
  destruct H as [<-|H], H' as [<-|H']; [reflexivity| | |exact (IH H3 H H' E)]; exfalso; apply H2; [rewrite E; exact (in_map md_instance _ _ H')|rewrite <- E; exact (in_map md_instance _ _ H)].
Qed.
Lemma inst_in i : In i (map md_instance elec) -> exists m, In m elec /\ md_instance m = i.
Proof. intros H. apply in_map_iff in H. destruct H as (m & E & H). eauto. Qed.

Definition groups_nodes (ls : list (list nat)) : list node := map (fun is => Group 0 (flat_map (declared b d elec) is) []) ls.
Definition top (p : nat -> bool) : list node := map leaf (filter (fun m => p (md_instance m)) elec).

Lemma find_groups i ls : find (is_meter i b d) (groups_nodes ls) = None.
Proof. induction ls; cbn; auto. Qed.
Lemma find_top p i ls m : In m elec -> md_instance m = i ->
  find (is_meter i b d) (top p ++ groups_nodes ls) = if p i then Some (leaf m) else None.
Proof.
  intros Hm Ei. unfold top. assert (A : forall l, incl l elec -> In m l -> NoDup (map md_instance l) -> find (is_meter i b d) (map leaf (filter (fun m => p (md_instance m)) l) ++ groups_nodes ls) = if p i then Some (leaf m) else None).
  { induction l as [|m' l IH]; cbn [filter]; intros HI H N; [destruct H|]. cbn in N. inversion N; subst.
    destruct (Nat.eq_dec (md_instance m') (md_instance m)) as [E|E].
    - assert (m' = m) by (apply same_md; [apply HI; left; reflexivity|exact Hm|exact E]). subst m'.
      destruct (p (md_instance m)) eqn:P; cbn [map app find is_meter leaf_for]; [rewrite !Nat.eqb_refl; reflexivity|].
      clear IH H N. induction l as [|m' l IH]; cbn [filter map app]; [apply find_groups|].
      cbn in H2. apply NoDup_cons_iff in H3. destruct H3 as [_ H3].
      assert (E2 : md_instance m' <> md_instance m) by tauto.
      destruct (p (md_instance m')); cbn [map app find is_meter leaf_for];
        [apply Nat.eqb_neq in E2; rewrite E2; cbn [andb]|]; apply IH; try tauto; intros x [<-|Hx]; apply HI; cbn; tauto.
    - destruct H as [H|H]; [congruence|]. assert (I : incl l elec) by (intros x Hx; apply HI; right; exact Hx). specialize (IH I H H3).
      destruct (p (md_instance m')); cbn [map app find is_meter leaf_for]; [|exact IH]. apply Nat.eqb_neq in E. rewrite E. exact IH. }
  apply A; [apply incl_refl|exact Hm|exact ND].
Qed.
Lemma find_none p i ls : ~ In i (map md_instance elec) -> find (is_meter i b d) (top p ++ groups_nodes ls) = None.
Proof.
  unfold top. generalize elec. induction elec0 as [|m l IH]; cbn [filter map app]; intros H; [apply find_groups|]. cbn in H.
  destruct (p (md_instance m)); cbn [map app find is_meter leaf_for]; [|apply IH; tauto]. destruct (Nat.eqb_spec (md_instance m) i); [tauto|]. apply IH. tauto.
Qed.

Lemma top_ext p q : (forall m, In m elec -> p (md_instance m) = q (md_instance m)) -> top p = top q.
Proof. intros H. unfold top. f_equal. apply filter_ext_in. exact H. Qed.

Lemma remove_groups m ls : remove_node (leaf m) (groups_nodes ls) = Err ValueError.
Proof. induction ls as [|a ls IH]; cbn; [reflexivity|]. fold (groups_nodes ls). rewrite IH. reflexivity. Qed.
Lemma remove_top p m ls : In m elec ->
  remove_node (leaf m) (top p ++ groups_nodes ls) =
    if p (md_instance m) then Ok (top (fun i => p i && negb (Nat.eqb (md_instance m) i)) ++ groups_nodes ls) else Err ValueError.
Proof.
  intros Hm. unfold top. revert Hm ND.
  assert (A : forall l, ~ In (md_instance m) (map md_instance l) ->
     remove_node (leaf m) (map leaf (filter (fun m => p (md_instance m)) l) ++ groups_nodes ls) = Err ValueError /\
     filter (fun m0 => p (md_instance m0) && negb (md_instance m =? md_instance m0)) l = filter (fun m => p (md_instance m)) l).
  { induction l as [|m' l IH]; cbn [filter map app]; intros H; [split; [apply remove_groups|reflexivity]|]. cbn in H. destruct IH as [I1 I2]; [tauto|].
    assert (E : (md_instance m =? md_instance m') = false) by (apply Nat.eqb_neq; intros E; apply H; left; auto).
    rewrite E, andb_true_r, I2. split; [|reflexivity]. destruct (p (md_instance m')); cbn [map app]; [|exact I1].
    cbn [remove_node]. rewrite I1. unfold node_eq, leaf_for at 1 2. rewrite Nat.eqb_sym, E. reflexivity. }
  generalize elec. intros l. induction l as [|m' l IH]; cbn [filter map app]; intros H N; [destruct H|]. inversion N; subst. destruct H as [->|H].
  - destruct (A l H2) as [A1 A2]. rewrite Nat.eqb_refl, andb_false_r, A2. destruct (p (md_instance m)); cbn [map app]; [|exact A1].
    cbn [remove_node]. rewrite eq_refl_node. reflexivity.
  - specialize (IH H H3). assert (E : (md_instance m =? md_instance m') = false) by (apply Nat.eqb_neq; intros E; apply H2; rewrite <- E; exact (in_map md_instance _ _ H)).
    rewrite E, andb_true_r. destruct (p (md_instance m')) eqn:P; cbn [map app]; [|exact IH].
    cbn [remove_node]. rewrite IH. unfold node_eq, leaf_for at 1 2. rewrite Nat.eqb_sym, E. cbn [andb]. destruct (p (md_instance m)); reflexivity.
Qed.

(** The state after some appliances. *)
Definition att_of (aa : nat * appliance_md) : list (nat * nat) :=
  match snd aa with Some is => map (fun i => (i, fst aa)) is | None => [] end.
Definition state_at (done : list appliance_md) : imported :=
  mkImp (top (fun i => negb (grouped done i)) ++ groups_nodes (group_lists done)) []
        (flat_map att_of (combine (seq 0 (length done)) done)).

Definition fits (done : list appliance_md) (a : appliance_md) : Prop :=
  exists is, a = Some is /\ incl is (map md_instance elec) /\ (length is <> 1 -> NoDup is) /\ forall i, In i is -> grouped done i = false.

Lemma get_ok done i m : i <> 0 -> In m elec -> md_instance m = i -> grouped done i = false ->
  get_item b d i (i_meters (state_at done)) = Ok (Some (leaf m)).
Proof.
  intros Z Hm E G. destruct i as [|i]; [congruence|]. cbn [get_item state_at i_meters]. rewrite (find_top _ _ _ _ Hm E). cbn beta. rewrite G. reflexivity.
Qed.
Lemma get_bad done i : i <> 0 -> (~ In i (map md_instance elec) \/ grouped done i = true) ->
  get_item b d i (i_meters (state_at done)) = Err KeyError.
Proof.
  intros Z H. destruct i as [|i]; [congruence|]. cbn [get_item state_at i_meters].
  destruct (in_dec Nat.eq_dec (S i) (map md_instance elec)) as [I|I].
  - destruct (inst_in _ I) as (m & Hm & E). rewrite (find_top _ _ _ _ Hm E). cbn beta. destruct H as [H| ->]; [contradiction|reflexivity].
  - rewrite (find_none _ _ _ I). reflexivity.
Qed.

Lemma get_all done is : ~ In 0 is -> incl is (map md_instance elec) -> (forall i, In i is -> grouped done i = false) ->
  exists ms, incl ms elec /\ map md_instance ms = is /\
    mapM (fun i => get_item b d i (i_meters (state_at done))) is = Ok (map (fun m => Some (leaf m)) ms) /\
    flat_map (declared b d elec) is = map leaf ms.
Proof.
  induction is as [|i is IH]; intros Z I G; [exists []; repeat split; auto; intros x []|].
  destruct (inst_in i) as (m & Hm & E); [apply I; left; reflexivity|].
  destruct IH as (ms & M1 & M2 & M3 & M4); [intros H; apply Z; right; exact H|intros x Hx; apply I; right; exact Hx|intros x Hx; apply G; right; exact Hx|].
  exists (m :: ms). split; [intros x [<-|Hx]; auto|]. split; [cbn; rewrite E, M2; reflexivity|]. split.
  - cbn [mapM]. rewrite (get_ok done i m); [|intros ->; apply Z; left; reflexivity|exact Hm|exact E|apply G; left; reflexivity]. cbn [bind]. rewrite M3. reflexivity.
  - cbn [flat_map map]. rewrite M4, <- E, (declared_in m elec ND Hm). reflexivity.
Qed.

Lemma take_all a ms : forall p ls dis att, incl ms elec -> 
  foldM (take_meter a) (map (fun m => Some (leaf m)) ms) (mkImp (top p ++ groups_nodes ls) dis att) =
    if forallb (fun m => p (md_instance m)) ms && (if NoDup_dec Nat.eq_dec (map md_instance ms) then true else false)
    then Ok (mkImp (top (fun i => p i && negb (existsb (Nat.eqb i) (map md_instance ms))) ++ groups_nodes ls) dis (att ++ map (fun m => (md_instance m, a)) ms))
    else Err ValueError.
Proof.
  induction ms as [|m ms IH]; intros p ls dis att HI; cbn [map foldM forallb existsb].
  - destruct (NoDup_dec Nat.eq_dec []) as [_|N]; [|exfalso; apply N; constructor]. cbn [andb]. rewrite app_nil_r. do 3 f_equal. apply top_ext. intros m _. rewrite andb_true_r. reflexivity.
  - cbn [take_meter i_meters i_disabled i_attached]. rewrite remove_top by (apply HI; left; reflexivity). destruct (p (md_instance m)) eqn:P; cbn [bind andb]; [|reflexivity].
    cbn [attach leaf_for]. rewrite IH by (intros x Hx; apply HI; right; exact Hx).
    assert (E : forallb (fun m0 => p (md_instance m0) && negb (md_instance m =? md_instance m0)) ms && (if NoDup_dec Nat.eq_dec (map md_instance ms) then true else false) =
                forallb (fun m0 => p (md_instance m0)) ms && (if NoDup_dec Nat.eq_dec (md_instance m :: map md_instance ms) then true else false)).
    { apply Bool.eq_true_iff_eq. rewrite !andb_true_iff, !forallb_forall.
      destruct (NoDup_dec Nat.eq_dec (map md_instance ms)) as [N1|N1], (NoDup_dec Nat.eq_dec (md_instance m :: map md_instance ms)) as [N2|N2]; rewrite ?NoDup_cons_iff in N2.
      - split; intros [H1 _]; (split; [|reflexivity]); intros x Hx; specialize (H1 x Hx).
        + apply andb_true_iff in H1. tauto.
        + rewrite H1. cbn. apply negb_true_iff, Nat.eqb_neq. intros E. apply (proj1 N2). rewrite E. exact (in_map md_instance _ _ Hx).
      - split; intros [H1 H2]; [|discriminate]. exfalso. apply N2. split; [|exact N1]. intros H. apply in_map_iff in H. destruct H as (x & E & Hx). specialize (H1 x Hx). apply andb_true_iff in H1. destruct H1 as [_ H1]. rewrite E, Nat.eqb_refl in H1. discriminate.
      - tauto.
      - split; intros [_ H]; discriminate. }
    rewrite E. match goal with |- (if ?c then _ else _) = _ => destruct c end; [|reflexivity]. do 2 f_equal; [|rewrite <- app_assoc; reflexivity].
    f_equal. apply top_ext. intros x _. rewrite (Nat.eqb_sym (md_instance m)). destruct (p (md_instance x)), (md_instance x =? md_instance m); reflexivity.
Qed.

Lemma grouped_snoc done a i : grouped (done ++ [a]) i = grouped done i || existsb (fun is => existsb (Nat.eqb i) is) (needs_group a).
Proof. unfold grouped, group_lists. rewrite flat_map_app, existsb_app. cbn [flat_map]. rewrite app_nil_r. reflexivity. Qed.
Lemma att_snoc done a : flat_map att_of (combine (seq 0 (length (done ++ [a]))) (done ++ [a])) =
  flat_map att_of (combine (seq 0 (length done)) done) ++ att_of (length done, a).
Proof.
  rewrite app_length, Nat.add_1_r, seq_S. cbn [Nat.add].
  assert (A : forall (l : list nat) (l' : list appliance_md) x y, length l = length l' -> combine (l ++ [x]) (l' ++ [y]) = combine l l' ++ [(x, y)]).
  { induction l as [|u l IH]; intros [|v l'] x y E; try discriminate; cbn; [reflexivity|]. injection E as E. rewrite IH by exact E. reflexivity. }
  rewrite A by apply seq_length. rewrite flat_map_app. cbn [flat_map]. rewrite app_nil_r. reflexivity.
Qed.

Lemma step_ok done a : ~ declares a 0 -> fits done a -> add_appliance b d (state_at done) (length done, a) = Ok (state_at (done ++ [a])).
Proof.
  intros Z (is & -> & I & N & G). destruct (get_all done is) as (ms & M1 & M2 & M3 & M4); [intros H; apply Z; exists is; auto|exact I|exact G|].
  destruct is as [|i [|i' is']].
  - cbn [add_appliance]. apply map_eq_nil in M2. subst ms. cbn. unfold state_at, group_lists. rewrite att_snoc, flat_map_app. cbn [flat_map att_of snd map]. rewrite !app_nil_r.
    f_equal. f_equal. unfold groups_nodes. rewrite map_app. cbn [needs_group length Nat.eqb map flat_map]. rewrite app_assoc. f_equal. f_equal. apply top_ext. intros m _. rewrite grouped_snoc. cbn. rewrite orb_false_r. reflexivity.
  - cbn [add_appliance]. destruct ms as [|m [|]]; try discriminate. cbn in M2. injection M2 as M2. rewrite (get_ok done i m); [|intros ->; apply Z; exists [0]; split; [reflexivity|left; reflexivity]|apply M1; left; reflexivity|exact M2|apply G; left; reflexivity].
    cbn [bind attach leaf_for]. f_equal. unfold state_at, group_lists. rewrite att_snoc, flat_map_app. cbn [flat_map needs_group length Nat.eqb]. rewrite !app_nil_r.
    cbn [i_meters i_disabled i_attached att_of snd fst map]. rewrite M2. f_equal. f_equal. apply top_ext. intros x _. rewrite grouped_snoc. cbn. rewrite orb_false_r. reflexivity.
  - remember (i :: i' :: is') as is eqn:Eis. assert (L : length is <> 1) by (subst is; cbn; lia).
    assert (U : forall s, add_appliance b d s (length done, Some is) = do xs <- mapM (fun i => get_item b d i (i_meters s)) is; do s' <- foldM (take_meter (length done)) xs s;
      Ok (mkImp (i_meters s' ++ [Group 0 (flat_map (fun x => match x with Some x => [x] | None => [] end) xs) []]) (i_disabled s') (i_attached s'))) by (intros s; subst is; reflexivity).
    rewrite U, M3. cbn [bind]. unfold state_at at 1. rewrite take_all by exact M1. rewrite M2.
    assert (F : forallb (fun m => negb (grouped done (md_instance m))) ms = true).
    { apply forallb_forall. intros x Hx. rewrite G; [reflexivity|]. rewrite <- M2. exact (in_map md_instance _ _ Hx). }
    rewrite F. cbn [andb]. destruct (NoDup_dec Nat.eq_dec is) as [_|X]; [|exfalso; exact (X (N L))]. cbn [bind i_meters i_disabled i_attached].
    f_equal. unfold state_at, group_lists. rewrite att_snoc, flat_map_app. cbn [flat_map]. rewrite app_nil_r. cbn [needs_group]. apply Nat.eqb_neq in L. rewrite L.
    cbn [att_of snd fst].
    assert (EA : map (fun i => (i, length done)) is = map (fun m => (md_instance m, length done)) ms) by (rewrite <- M2, map_map; reflexivity). rewrite EA. f_equal. unfold groups_nodes. rewrite map_app. cbn [map]. rewrite M4.
    assert (EF : flat_map (fun x => match x with Some x => [x] | None => [] end) (map (fun m => Some (leaf m)) ms) = map leaf ms) by (clear; induction ms; cbn; congruence).
    rewrite EF, app_assoc. f_equal. f_equal. apply top_ext. intros m _. rewrite grouped_snoc. cbn [needs_group]. rewrite L. cbn [existsb]. rewrite orb_false_r, negb_orb. reflexivity.
Qed.

Lemma step_bad done a : ~ declares a 0 -> ~ fits done a -> exists e, add_appliance b d (state_at done) (length done, a) = Err e.
Proof.
  intros Z F. destruct a as [is|]; [|eexists; reflexivity].
  destruct (Forall_dec (fun i => In i (map md_instance elec) /\ grouped done i = false)
              (fun i => match in_dec Nat.eq_dec i (map md_instance elec), Bool.bool_dec (grouped done i) false with left p, left q => left (conj p q) | right p, _ => right (fun h => p (proj1 h)) | _, right q => right (fun h => q (proj2 h)) end) is) as [A|A].
  - rewrite Forall_forall in A. destruct (get_all done is) as (ms & M1 & M2 & M3 & M4); [intros H; apply Z; exists is; auto|intros x Hx; apply A; exact Hx|intros x Hx; apply A; exact Hx|].
    destruct is as [|i [|i' is']].
    + exfalso. apply F. exists []. split; [reflexivity|]. split; [intros x []|]. split; [intros; constructor|intros x []].
    + exfalso. apply F. exists [i]. split; [reflexivity|]. split; [intros x Hx; apply A; exact Hx|]. split; [cbn; lia|intros x Hx; apply A; exact Hx].
    + remember (i :: i' :: is') as is eqn:Eis. assert (L : length is <> 1) by (subst is; cbn; lia). exists ValueError.
      assert (U : forall s, add_appliance b d s (length done, Some is) = do xs <- mapM (fun i => get_item b d i (i_meters s)) is; do s' <- foldM (take_meter (length done)) xs s;
        Ok (mkImp (i_meters s' ++ [Group 0 (flat_map (fun x => match x with Some x => [x] | None => [] end) xs) []]) (i_disabled s') (i_attached s'))) by (intros s; subst is; reflexivity).
      rewrite U, M3. cbn [bind]. unfold state_at at 1. rewrite take_all by exact M1. rewrite M2.
      destruct (NoDup_dec Nat.eq_dec is) as [N|N]; [|rewrite andb_false_r; reflexivity].
      exfalso. apply F. exists is. split; [reflexivity|]. split; [intros x Hx; apply A; exact Hx|]. split; [intros _; exact N|intros x Hx; apply A; exact Hx].
  - apply neg_Forall_Exists_neg in A; [|intros x; destruct (in_dec Nat.eq_dec x (map md_instance elec)), (Bool.bool_dec (grouped done x) false); tauto].
    assert (B : forall l, ~ In 0 l -> Exists (fun i => ~ (In i (map md_instance elec) /\ grouped done i = false)) l -> exists e, mapM (fun i => get_item b d i (i_meters (state_at done))) l = Err e).
    { induction l as [|i l IH]; intros Z0 H; [inversion H|]. cbn [mapM]. destruct (in_dec Nat.eq_dec i (map md_instance elec)) as [I|I]; [|rewrite get_bad; [eexists; reflexivity|intros ->; apply Z0; left; reflexivity|tauto]].
      destruct (grouped done i) eqn:G; [rewrite get_bad; [eexists; reflexivity|intros ->; apply Z0; left; reflexivity|tauto]|].
      destruct (inst_in i I) as (m & Hm & E). rewrite (get_ok done i m); [|intros ->; apply Z0; left; reflexivity|exact Hm|exact E|exact G]. cbn [bind].
      destruct IH as (e & ->); [intros X; apply Z0; right; exact X| |eexists; reflexivity]. inversion H; subst; [tauto|assumption]. }
    destruct (B is) as (e & E); [intros H; apply Z; exists is; auto|exact A|].
    destruct is as [|i [|i' is']]; [inversion A| |].
    + exists e. cbn [add_appliance]. cbn [mapM] in E. destruct (get_item b d i (i_meters (state_at done))) as [x|e']; cbn [bind] in *; [discriminate|]. congruence.
    + exists e. cbn [add_appliance]. rewrite E. reflexivity.
Qed.

(** All appliances. *)
Fixpoint all_fit (done todo : list appliance_md) : Prop :=
  match todo with [] => True | a :: todo => fits done a /\ all_fit (done ++ [a]) todo end.
Lemma all_ok todo : forall done, Forall (fun a => ~ declares a 0) todo -> all_fit done todo ->
  foldM (add_appliance b d) (combine (seq (length done) (length todo)) todo) (state_at done) = Ok (state_at (done ++ todo)).
Proof.
  induction todo as [|a todo IH]; intros done Z F; cbn [length seq combine foldM]; [rewrite app_nil_r; reflexivity|]. inversion Z; subst. destruct F as [F1 F2].
  rewrite step_ok by assumption. cbn [bind]. specialize (IH (done ++ [a]) H2 F2). rewrite app_length, Nat.add_1_r, <- app_assoc in IH. exact IH.
Qed.
Lemma all_bad todo : forall done, Forall (fun a => ~ declares a 0) todo -> ~ all_fit done todo ->
  exists e, foldM (add_appliance b d) (combine (seq (length done) (length todo)) todo) (state_at done) = Err e.
Proof.
  induction todo as [|a todo IH]; intros done Z F; cbn [all_fit] in F; [tauto|]. cbn [length seq combine foldM]. inversion Z; subst.
  destruct (add_appliance b d (state_at done) (length done, a)) as [s|e] eqn:E; [|exists e; reflexivity]. cbn [bind].
  assert (FA : fits done a).
  { assert (D : fits done a \/ ~ fits done a).
    { destruct a as [is|]; [|right; intros (is & X & _); discriminate].
      destruct (Forall_dec (fun i => In i (map md_instance elec) /\ grouped done i = false)
              (fun i => match in_dec Nat.eq_dec i (map md_instance elec), Bool.bool_dec (grouped done i) false with left p, left q => left (conj p q) | right p, _ => right (fun h => p (proj1 h)) | _, right q => right (fun h => q (proj2 h)) end) is) as [A|A].
      - rewrite Forall_forall in A. destruct (Nat.eq_dec (length is) 1) as [L|L].
        + left. exists is. split; [reflexivity|]. split; [intros x Hx; apply A; exact Hx|]. split; [tauto|intros x Hx; apply A; exact Hx].
        + destruct (NoDup_dec Nat.eq_dec is) as [N|N].
          * left. exists is. split; [reflexivity|]. split; [intros x Hx; apply A; exact Hx|]. split; [tauto|intros x Hx; apply A; exact Hx].
          * right. intros (is' & X & _ & N' & _). injection X as <-. apply N. apply N'. exact L.
      - right. intros (is' & X & I & _ & G). injection X as <-. apply A. apply Forall_forall. intros x Hx. split; [apply I|apply G]; exact Hx. }
    destruct D as [D|D]; [exact D|]. destruct (step_bad done a H1 D) as (e & E'). congruence. }
  rewrite step_ok in E by assumption. injection E as <-.
  destruct (IH (done ++ [a]) H2) as (e & E'); [tauto|]. rewrite app_length, Nat.add_1_r in E'. eauto.
Qed.

Lemma grouped_spec l i : grouped l i = true <-> exists k is, nth_error l k = Some (Some is) /\ length is <> 1 /\ In i is.
Proof.
  unfold grouped, group_lists. rewrite existsb_exists. split.
  - intros (is & H & E). apply in_flat_map in H. destruct H as (a & H & N). apply In_nth_error in H. destruct H as (k & H).
    apply existsb_exists in E. destruct E as (j & Hj & E). apply Nat.eqb_eq in E. subst j.
    destruct a as [is'|]; [|destruct N]. cbn in N. destruct (Nat.eqb_spec (length is') 1); [destruct N|]. destruct N as [<-|[]]. eauto.
  - intros (k & is & H & L & I). exists is. split.
    + apply in_flat_map. exists (Some is). split; [eapply nth_error_In; exact H|]. cbn. apply Nat.eqb_neq in L. rewrite L. left. reflexivity.
    + apply existsb_exists. exists i. split; [exact I|apply Nat.eqb_refl].
Qed.

Lemma all_fit_iff todo : forall done, all_fit done todo <-> forall k a, nth_error todo k = Some a -> fits (done ++ firstn k todo) a.
Proof.
  induction todo as [|a todo IH]; intros done; cbn [all_fit].
  - split; [|trivial]. intros _ [|k] a H; discriminate.
  - rewrite IH. split.
    + intros [F1 F2] [|k] a' H; cbn in H |- *; [injection H as <-; rewrite app_nil_r; exact F1|]. specialize (F2 k a' H). rewrite <- app_assoc in F2. exact F2.
    + intros F. split; [specialize (F 0 a eq_refl); cbn in F; rewrite app_nil_r in F; exact F|]. intros k a' H. specialize (F (S k) a' H). rewrite <- app_assoc. exact F.
Qed.
Lemma consistent_iff apps : all_fit [] apps <-> consistent elec apps.
Proof.
  rewrite all_fit_iff. unfold consistent. split.
  - intros F k a H. destruct (F k a H) as (is & -> & I & N & G). exists is. split; [reflexivity|]. split; [exact I|]. split; [exact N|].
    intros j is' J HJ L i Hi Hi'. specialize (G i Hi). cbn [app] in G. apply Bool.not_true_iff_false in G. apply G. apply grouped_spec. exists j, is'. split; [|auto].
    rewrite nth_firstn. apply Nat.ltb_lt in J. rewrite J. exact HJ.
  - intros F k a H. destruct (F k a H) as (is & -> & I & N & G). exists is. split; [reflexivity|]. split; [exact I|]. split; [exact N|].
    intros i Hi. cbn [app]. apply Bool.not_true_iff_false. intros X. apply grouped_spec in X. destruct X as (j & is' & HJ & L & Hi').
    rewrite nth_firstn in HJ. destruct (Nat.ltb_spec j k); [|discriminate]. exact (G j is' H0 HJ L i Hi Hi').
Qed.
End Layout.
