(** Proofs about the import of a building's metadata: the results. *)
From Coq Require Import Permutation ListDec.
From Verif Require Import Base GroupModel GroupSpec GroupProofs ImportModel ImportSpec ImportProofs.
Open Scope nat_scope.

Section Layout.
Variables (b d : nat) (elec : list meter_md).
Hypothesis ND : NoDup (map md_instance elec).
Notation leaf := (leaf_for b d).
Notation top := (top b d elec).
Notation groups_nodes := (groups_nodes b d elec).

Lemma is_disabled_leaf m : In m elec -> is_disabled elec (leaf m) = md_disabled m.
Proof.
  intros H. cbn. apply Bool.eq_true_iff_eq. rewrite existsb_exists. split.
  - intros (m' & H' & E). apply andb_true_iff in E. destruct E as [E D]. apply Nat.eqb_eq in E. rewrite (same_md elec ND m m' H H'); auto.
  - intros D. exists m. rewrite Nat.eqb_refl, D. auto.
Qed.
Lemma filter_disabled p ls : filter (is_disabled elec) (top p ++ groups_nodes ls) = map leaf (filter (fun m => p (md_instance m) && md_disabled m) elec).
Proof.
  rewrite filter_app. replace (filter (is_disabled elec) (groups_nodes ls)) with (@nil node) by (symmetry; unfold ImportProofs.groups_nodes; induction ls; [reflexivity|assumption]).
  rewrite app_nil_r. unfold ImportProofs.top. assert (A : forall l, incl l elec -> filter (is_disabled elec) (map leaf (filter (fun m => p (md_instance m)) l)) = map leaf (filter (fun m => p (md_instance m) && md_disabled m) l)).
  { induction l as [|m l IH]; intros I; [reflexivity|]. assert (I' : incl l elec) by (intros x X; apply I; right; exact X). cbn [filter]. destruct (p (md_instance m)); cbn [map filter andb]; [|exact (IH I')].
    rewrite is_disabled_leaf by (apply I; left; reflexivity). destruct (md_disabled m); cbn [map]; rewrite (IH I'); reflexivity. }
  apply A. apply incl_refl.
Qed.
Lemma disable_all ms : forall p ls dis att, incl ms elec -> NoDup (map md_instance ms) -> Forall (fun m => p (md_instance m) = true) ms ->
  foldM disable_meter (map leaf ms) (mkImp (top p ++ groups_nodes ls) dis att) =
  Ok (mkImp (top (fun i => p i && negb (existsb (Nat.eqb i) (map md_instance ms))) ++ groups_nodes ls) (dis ++ map leaf ms) att).
Proof.
  induction ms as [|m ms IH]; intros p ls dis att HI N F; cbn [map foldM existsb].
  - rewrite app_nil_r. do 3 f_equal. apply top_ext. intros m _. rewrite andb_true_r. reflexivity.
  - apply Forall_cons_iff in F. destruct F as [F1 F2]. inversion N; subst. unfold disable_meter at 1. cbn [i_meters i_disabled i_attached]. rewrite (remove_top b d elec ND) by (apply HI; left; reflexivity).
    rewrite F1. cbn [bind]. rewrite IH; [|intros x X; apply HI; right; exact X|assumption|].
    + rewrite <- app_assoc. do 3 f_equal. apply top_ext. intros x _. rewrite (Nat.eqb_sym (md_instance m)). destruct (p (md_instance x)), (md_instance x =? md_instance m); reflexivity.
    + rewrite Forall_forall in *. intros x X. rewrite (F2 x X). cbn. apply negb_true_iff, Nat.eqb_neq. intros E. apply H1. rewrite E. exact (in_map md_instance _ _ X).
Qed.

Lemma nodup_filter (f : meter_md -> bool) l : NoDup (map md_instance l) -> NoDup (map md_instance (filter f l)).
Proof.
  induction l as [|m l IH]; cbn; intros N; [constructor|]. inversion N; subst. destruct (f m); cbn; [|exact (IH H2)]. constructor; [|exact (IH H2)].
  intros H. apply H1. apply in_map_iff in H. destruct H as (x & E & X). apply filter_In in X. rewrite <- E. apply in_map. tauto.
Qed.

Lemma import_eq apps : no_mains apps -> consistent elec apps ->
  import_metadata b d elec apps =
  Ok (mkImp (map leaf (filter (fun m => negb (grouped apps (md_instance m)) && negb (md_disabled m)) elec) ++ map (fun is => Group 0 (flat_map (declared b d elec) is) []) (group_lists apps))
            (map leaf (filter (fun m => negb (grouped apps (md_instance m)) && md_disabled m) elec))
            (flat_map att_of (combine (seq 0 (length apps)) apps))).
Proof.
  intros Z C. apply (consistent_iff elec) in C. unfold import_metadata.
  assert (S0 : mkImp (map leaf elec) [] [] = state_at b d elec []).
  { unfold state_at. cbn. rewrite app_nil_r. f_equal. unfold ImportProofs.top. f_equal. clear. induction elec as [|m l IH]; cbn; congruence. }
  rewrite S0. pose proof (all_ok b d elec ND apps [] Z C) as A. cbn [length app] in A. rewrite A. cbn [bind]. cbn [state_at i_meters].
  rewrite filter_disabled. unfold state_at. rewrite disable_all; [|intros x X; apply filter_In in X; tauto|apply nodup_filter; exact ND|].
  - cbn [app]. do 3 f_equal. unfold ImportProofs.top. f_equal. apply filter_ext_in. intros m Hm. destruct (negb (grouped apps (md_instance m))) eqn:G; [|reflexivity]. cbn [andb]. f_equal.
    apply Bool.eq_true_iff_eq. rewrite existsb_exists. split.
    + intros (i & H & E). apply Nat.eqb_eq in E. subst i. apply in_map_iff in H. destruct H as (m' & E & H). apply filter_In in H. destruct H as [H1 H2]. rewrite (same_md elec ND m m'); auto. apply andb_true_iff in H2. tauto.
    + intros D. exists (md_instance m). split; [|apply Nat.eqb_refl]. apply in_map. apply filter_In. rewrite G, D. auto.
  - apply Forall_forall. intros m H. apply filter_In in H. destruct H as [_ H]. apply andb_true_iff in H. tauto.
Qed.
Lemma import_err apps : no_mains apps -> ~ consistent elec apps -> exists e, import_metadata b d elec apps = Err e.
Proof.
  intros Z C. rewrite <- (consistent_iff elec) in C. unfold import_metadata.
  assert (S0 : mkImp (map leaf elec) [] [] = state_at b d elec []).
  { unfold state_at. cbn. rewrite app_nil_r. f_equal. unfold ImportProofs.top. f_equal. clear. induction elec as [|m l IH]; cbn; congruence. }
  rewrite S0. destruct (all_bad b d elec ND apps [] Z C) as (e & A). cbn [length] in A. rewrite A. exists e. reflexivity.
Qed.
Lemma import_ok_iff apps : no_mains apps -> ((exists s, import_metadata b d elec apps = Ok s) <-> consistent elec apps).
Proof.
  intros Z. split.
  - intros (s & E). assert (D : all_fit elec [] apps \/ ~ all_fit elec [] apps).
    { clear E. generalize (@nil appliance_md). clear Z. induction apps as [|a l IH]; intros done; cbn [all_fit]; [left; exact I|]. destruct (IH (done ++ [a])) as [X|X]; [|right; tauto].
      assert (D : fits elec done a \/ ~ fits elec done a); [|tauto].
      destruct a as [is|]; [|right; intros (is & Y & _); discriminate].
      destruct (Forall_dec (fun i => In i (map md_instance elec) /\ grouped done i = false)
              (fun i => match in_dec Nat.eq_dec i (map md_instance elec), Bool.bool_dec (grouped done i) false with left p, left q => left (conj p q) | right p, _ => right (fun h => p (proj1 h)) | _, right q => right (fun h => q (proj2 h)) end) is) as [A|A].
      - rewrite Forall_forall in A. destruct (Nat.eq_dec (length is) 1) as [L|L].
        + left. exists is. split; [reflexivity|]. split; [intros x Hx; apply A; exact Hx|]. split; [tauto|intros x Hx; apply A; exact Hx].
        + destruct (NoDup_dec Nat.eq_dec is) as [N|N].
          * left. exists is. split; [reflexivity|]. split; [intros x Hx; apply A; exact Hx|]. split; [tauto|intros x Hx; apply A; exact Hx].
          * right. intros (is' & Y & _ & N' & _). injection Y as <-. apply N. apply N'. exact L.
      - right. intros (is' & Y & J & _ & G). injection Y as <-. apply A. apply Forall_forall. intros x Hx. split; [apply J|apply G]; exact Hx. }
    destruct D as [D|D]; [apply (consistent_iff elec); exact D|]. exfalso. destruct (import_err apps Z) as (e & E'); [|congruence]. intros C. apply D. apply (consistent_iff elec). exact C.
  - intros C. rewrite (import_eq apps Z C). eauto.
Qed.
Lemma layout_thm apps s : no_mains apps -> import_metadata b d elec apps = Ok s ->
  i_meters s = map leaf (filter (fun m => negb (grouped apps (md_instance m)) && negb (md_disabled m)) elec) ++ map (fun is => Group 0 (flat_map (declared b d elec) is) []) (group_lists apps) /\
  i_disabled s = map leaf (filter (fun m => negb (grouped apps (md_instance m)) && md_disabled m) elec).
Proof.
  intros Z E. assert (C : consistent elec apps) by (apply (import_ok_iff apps Z); eauto). rewrite (import_eq apps Z C) in E. injection E as <-. split; reflexivity.
Qed.

Lemma att_single a is i : (length is <> 1 -> NoDup is) -> map snd (filter (fun p : nat * nat => fst p =? i) (map (fun i => (i, a)) is)) = if existsb (Nat.eqb i) is then [a] else [].
Proof.
  intros N. assert (N' : NoDup is).
  { destruct is as [|x [|y l]]; [constructor|repeat constructor; intros []|apply N; cbn; lia]. }
  clear N. induction N' as [|x l X N IH]; cbn; [reflexivity|]. rewrite (Nat.eqb_sym i). destruct (Nat.eqb_spec x i) as [->|E]; cbn [orb map snd]; [|exact IH].
  rewrite IH. destruct (existsb (Nat.eqb i) l) eqn:Y; [|reflexivity]. apply existsb_exists in Y. destruct Y as (j & J & Y). apply Nat.eqb_eq in Y. subst j. contradiction.
Qed.
Lemma attached_thm apps s : no_mains apps -> import_metadata b d elec apps = Ok s ->
  forall i, appliances_of s i = filter (fun k => match nth_error apps k with Some a => declaresb a i | None => false end) (seq 0 (length apps)).
Proof.
  intros Z E i. assert (C : consistent elec apps) by (apply (import_ok_iff apps Z); eauto). rewrite (import_eq apps Z C) in E. injection E as <-. unfold appliances_of. cbn [i_attached].
  assert (N : Forall (fun a => forall is, a = Some is -> length is <> 1 -> NoDup is) apps).
  { apply Forall_forall. intros a Ha is -> L. apply In_nth_error in Ha. destruct Ha as (k & K). destruct (C k _ K) as (is' & X & _ & Y & _). injection X as <-. exact (Y L). }
  clear C Z. assert (A : forall done, map snd (filter (fun p : nat * nat => fst p =? i) (flat_map att_of (combine (seq (length done) (length apps)) apps))) =
     filter (fun k => match nth_error (done ++ apps) k with Some a => declaresb a i | None => false end) (seq (length done) (length apps))).
  { induction apps as [|a l IH]; intros done; [reflexivity|]. inversion N; subst. cbn [length seq combine flat_map filter]. rewrite filter_app, map_app. 
    specialize (IH H2 (done ++ [a])). rewrite app_length, Nat.add_1_r, <- app_assoc in IH. cbn [app] in IH. rewrite IH.
    rewrite nth_error_app2 by lia. rewrite Nat.sub_diag. cbn [nth_error]. unfold att_of. cbn [snd fst].
    destruct a as [is|]; cbn [declaresb]; [|reflexivity]. rewrite att_single by (apply H1; reflexivity). destruct (existsb (Nat.eqb i) is); reflexivity. }
  exact (A []).
Qed.
End Layout.

(** *** Every meter once, whatever the appliances *)
Fixpoint hinst (h : hkey) : list nat := match h with HLeaf i _ _ => [i] | HGroup _ ms _ => flat_map hinst ms end.
Lemma hinst_hash x : hinst (hash x) = instances x.
Proof.
  induction x as [i b d s|n ms ds IH _] using node_rect'; cbn; [reflexivity|]. rewrite !flat_map_concat_map, map_map. f_equal. apply map_ext_in. rewrite Forall_forall in IH. exact IH.
Qed.
Lemma in_flat_hash i ms : In i (flat_map instances ms) <-> exists h, In h (map hash ms) /\ In i (hinst h).
Proof.
  rewrite in_flat_map. split.
  - intros (x & H & I). exists (hash x). rewrite hinst_hash. split; [exact (in_map hash _ _ H)|exact I].
  - intros (h & H & I). apply in_map_iff in H. destruct H as (x & <- & H). rewrite hinst_hash in I. eauto.
Qed.
Lemma node_eq_instances x y : node_eq x y = true -> NoDup (instances x) -> NoDup (instances y) -> Permutation (instances x) (instances y).
Proof.
  destruct x as [i b d s|n ms ds], y as [i' b' d' s'|n' ms' ds']; try discriminate.
  - intros H _ _. apply eq_leaf in H. injection H as -> _ _. reflexivity.
  - intros H N N'. rewrite eq_group in H. apply NoDup_Permutation; [exact N|exact N'|]. intros i. cbn [instances]. rewrite !in_flat_hash. split; intros (h & Hh & Hi); exists h; (split; [apply H; exact Hh|exact Hi]).
Qed.
Definition ids (l : list node) : list nat := flat_map instances l.
Lemma ids_app a b : ids (a ++ b) = ids a ++ ids b.
Proof. apply flat_map_app. Qed.
Lemma nodup_app_l {A} (a b : list A) : NoDup (a ++ b) -> NoDup a /\ NoDup b.
Proof.
  induction a as [|x a IH]; cbn; intros N; [split; [constructor|exact N]|]. inversion N; subst. destruct (IH H2) as [X Y]. split; [constructor; [|exact X]|exact Y]. intros H. apply H1. apply in_or_app. auto.
Qed.
Lemma ids_mid l1 y l2 : Permutation (ids (l1 ++ y :: l2)) (instances y ++ ids (l1 ++ l2)).
Proof. rewrite !ids_app. cbn [ids flat_map]. rewrite app_assoc. rewrite (Permutation_app_comm (ids l1)). rewrite <- app_assoc. reflexivity. Qed.
Lemma remove_ids x l r : remove_node x l = Ok r -> NoDup (ids l) -> NoDup (instances x) -> Permutation (ids l) (instances x ++ ids r).
Proof.
  intros E N Nx. apply remove_exact in E. destruct E as (y & l1 & l2 & -> & -> & Q). rewrite ids_mid. apply Permutation_app_tail. apply node_eq_instances; [exact Q| |exact Nx].
  assert (M : NoDup (instances y ++ ids (l1 ++ l2))) by (eapply Permutation_NoDup; [apply ids_mid|exact N]). apply nodup_app_l in M. tauto.
Qed.
Lemma nodup_in x l : In x l -> NoDup (ids l) -> NoDup (instances x).
Proof.
  intros H N. apply in_split in H. destruct H as (l1 & l2 & ->). assert (M : NoDup (instances x ++ ids (l1 ++ l2))) by (eapply Permutation_NoDup; [apply ids_mid|exact N]). apply nodup_app_l in M. tauto.
Qed.
Lemma ids_filter_in f l i : In i (ids (filter f l)) -> In i (ids l).
Proof. unfold ids. rewrite !in_flat_map. intros (x & H & I). apply filter_In in H. exists x. tauto. Qed.
Lemma nodup_ids_filter f l : NoDup (ids l) -> NoDup (ids (filter f l)).
Proof.
  induction l as [|x l IH]; cbn; intros N; [constructor|]. pose proof (nodup_app_l _ _ N) as [N1 N2]. destruct (f x); cbn; [|exact (IH N2)].
  assert (A : forall a b, NoDup a -> NoDup b -> (forall i : nat, In i a -> ~ In i b) -> NoDup (a ++ b)).
  { clear. induction a as [|x a IH]; intros b N1 N2 H; [exact N2|]. inversion N1; subst. cbn. constructor; [|apply IH; [assumption|assumption|intros i I; apply H; right; exact I]].
    rewrite in_app_iff. intros [X|X]; [contradiction|]. exact (H x (or_introl eq_refl) X). }
  apply A; [exact N1|exact (IH N2)|]. intros i I J. apply ids_filter_in in J.
  clear -N I J. revert N. fold (ids l). induction (instances x) as [|j a IHa]; cbn; intros N; [destruct I|]. inversion N; subst. destruct I as [->|I]; [apply H1; apply in_or_app; right; exact J|exact (IHa I H2)].
Qed.
Lemma get_item_nodup b d i ms x : NoDup (ids ms) -> get_item b d i ms = Ok (Some x) -> NoDup (instances x).
Proof.
  intros N. destruct i as [|i]; cbn [get_item].
  - assert (N' : NoDup (ids (filter is_site (filter (in_building b d) ms)))) by (apply nodup_ids_filter, nodup_ids_filter; exact N).
    destruct (filter (in_building b d) ms) as [|y l]; [discriminate|]. unfold mains. destruct (several_buildings _); [discriminate|]. cbn [g_meters bind].
    destruct (filter is_site (y :: l)) as [|z [|z' l']]; intros H; [discriminate| |]; injection H as <-; [|exact N']. cbn in N'. rewrite app_nil_r in N'. exact N'.
  - destruct (find (is_meter (S i) b d) ms) as [y|] eqn:E; [|discriminate]. intros H. injection H as <-. apply find_some in E. exact (nodup_in _ _ (proj1 E) N).
Qed.
Lemma mapM_spec {A B} (f : A -> res B) l : forall r, mapM f l = Ok r -> Forall2 (fun x y => f x = Ok y) l r.
Proof.
  induction l as [|x l IH]; cbn; intros r H; [injection H as <-; constructor|]. destruct (f x) as [y|] eqn:E; cbn in H; [|discriminate]. destruct (mapM f l) as [ys|]; cbn in H; [|discriminate]. injection H as <-. constructor; [exact E|]. apply IH. reflexivity.
Qed.
Definition somes (xs : list (option node)) : list node := flat_map (fun x => match x with Some x => [x] | None => [] end) xs.
Lemma take_ids a xs : forall s s', Forall (fun x => forall y, x = Some y -> NoDup (instances y)) xs -> NoDup (ids (i_meters s)) ->
  foldM (take_meter a) xs s = Ok s' -> Permutation (ids (i_meters s)) (ids (somes xs) ++ ids (i_meters s')) /\ i_disabled s' = i_disabled s.
Proof.
  induction xs as [|x xs IH]; intros s s' F N E; cbn [foldM] in E.
  - injection E as <-. split; reflexivity.
  - apply Forall_cons_iff in F. destruct F as [F1 F2]. destruct x as [x|]; [|discriminate]. cbn [take_meter bind] in E. destruct (remove_node x (i_meters s)) as [ms|] eqn:R; cbn [bind] in E; [|discriminate].
    pose proof (remove_ids _ _ _ R N (F1 x eq_refl)) as P. apply IH in E; [|exact F2|].
    + cbn [i_meters i_disabled] in E. destruct E as [E1 E2]. split; [|exact E2]. rewrite P. change (ids (somes (Some x :: xs))) with (instances x ++ ids (somes xs)). rewrite <- app_assoc. apply Permutation_app_head. exact E1.
    + cbn [i_meters]. assert (M : NoDup (instances x ++ ids ms)) by (eapply Permutation_NoDup; [exact P|exact N]). apply nodup_app_l in M. tauto.
Qed.
Lemma add_ids b d s aa s' : NoDup (ids (i_meters s)) -> add_appliance b d s aa = Ok s' -> Permutation (ids (i_meters s)) (ids (i_meters s')) /\ i_disabled s' = i_disabled s.
Proof.
  destruct aa as [a [is|]]; [|discriminate]. intros N E.
  assert (G : forall is, (do xs <- mapM (fun i => get_item b d i (i_meters s)) is; do s' <- foldM (take_meter a) xs s;
      Ok (mkImp (i_meters s' ++ [Group 0 (somes xs) []]) (i_disabled s') (i_attached s'))) = Ok s' -> Permutation (ids (i_meters s)) (ids (i_meters s')) /\ i_disabled s' = i_disabled s).
  { clear E is. intros is. destruct (mapM _ is) as [xs|] eqn:M; cbn [bind]; [|discriminate]. destruct (foldM (take_meter a) xs s) as [s1|] eqn:F; cbn [bind]; [|discriminate]. intros H. injection H as <-.
    apply take_ids in F; [|apply Forall_forall; intros x X y ->; apply mapM_spec in M; clear F|exact N].
    - destruct F as [P Q]. cbn [i_meters i_disabled]. split; [|exact Q]. rewrite ids_app. cbn [ids flat_map instances]. rewrite app_nil_r. rewrite P. apply Permutation_app_comm.
    - clear -M X N. induction M as [|i o l r Hi M IH]; [destruct X|]. destruct X as [->|X]; [exact (get_item_nodup _ _ _ _ _ N Hi)|exact (IH X)]. }
  destruct is as [|i [|i' is']]; cbn [add_appliance] in E; [exact (G [] E)| |exact (G (i :: i' :: is') E)].
  destruct (get_item b d i (i_meters s)) as [[[]|]|]; cbn [bind] in E; try discriminate; injection E as <-; split; reflexivity.
Qed.
Lemma adds_ids b d l : forall s s', NoDup (ids (i_meters s)) -> foldM (add_appliance b d) l s = Ok s' -> Permutation (ids (i_meters s)) (ids (i_meters s')) /\ i_disabled s' = i_disabled s.
Proof.
  induction l as [|aa l IH]; intros s s' N E; cbn [foldM] in E; [injection E as <-; split; reflexivity|]. destruct (add_appliance b d s aa) as [s1|] eqn:A; cbn [bind] in E; [|discriminate].
  apply add_ids in A; [|exact N]. destruct A as [P Q]. apply IH in E; [|eapply Permutation_NoDup; eassumption]. destruct E as [P' Q']. split; [rewrite P; exact P'|congruence].
Qed.
Lemma disables_ids l : forall s s', Forall (fun x => NoDup (instances x)) l -> NoDup (ids (i_meters s)) -> foldM disable_meter l s = Ok s' ->
  Permutation (ids (i_meters s) ++ ids (i_disabled s)) (ids (i_meters s') ++ ids (i_disabled s')).
Proof.
  induction l as [|x l IH]; intros s s' F N E; cbn [foldM] in E; [injection E as <-; reflexivity|]. apply Forall_cons_iff in F. destruct F as [F1 F2].
  unfold disable_meter at 1 in E. destruct (remove_node x (i_meters s)) as [ms|] eqn:R; cbn [bind] in E; [|discriminate]. pose proof (remove_ids _ _ _ R N F1) as P. apply IH in E; [|exact F2|].
  - rewrite <- E. cbn [i_meters i_disabled]. rewrite P, ids_app. cbn [ids flat_map]. rewrite app_nil_r. rewrite <- app_assoc, (Permutation_app_comm (instances x)), <- app_assoc. reflexivity.
  - cbn [i_meters]. assert (M : NoDup (instances x ++ ids ms)) by (eapply Permutation_NoDup; [exact P|exact N]). apply nodup_app_l in M. tauto.
Qed.
Lemma once_thm b d elec apps s : NoDup (map md_instance elec) -> import_metadata b d elec apps = Ok s ->
  Permutation (map md_instance elec) (flat_map instances (i_meters s) ++ flat_map instances (i_disabled s)).
Proof.
  intros N E. unfold import_metadata in E. destruct (foldM (add_appliance b d) _ _) as [s1|] eqn:A; cbn [bind] in E; [|discriminate].
  assert (I : ids (map (leaf_for b d) elec) = map md_instance elec) by (unfold ids; clear; induction elec; cbn; congruence).
  apply adds_ids in A; cbn [i_meters i_disabled] in *; [|rewrite I; exact N]. destruct A as [P Q]. rewrite I in P.
  assert (N1 : NoDup (ids (i_meters s1))) by (eapply Permutation_NoDup; eassumption).
  apply disables_ids in E; [|apply Forall_forall; intros x X; apply filter_In in X; exact (nodup_in _ _ (proj1 X) N1)|exact N1]. rewrite Q in E. cbn [ids flat_map] in E. rewrite app_nil_r in E. rewrite P. exact E.
Qed.

(** *** Appliances on the mains, one meter each *)
Section Single.
Variables (b d : nat) (elec : list meter_md).
Hypothesis ND : NoDup (map md_instance elec).
Notation leaf := (leaf_for b d).

Lemma all_in_building l : filter (in_building b d) (map leaf l) = map leaf l.
Proof. induction l as [|m l IH]; [reflexivity|]. cbn. rewrite !Nat.eqb_refl. cbn. rewrite IH. reflexivity. Qed.
Lemma site_leaves l : filter is_site (map leaf l) = map leaf (filter md_site l).
Proof. induction l as [|m l IH]; [reflexivity|]. cbn. destruct (md_site m); cbn; rewrite IH; reflexivity. Qed.
Lemma attach_leaves a l : forall att, fold_left (attach a) (map leaf l) att = att ++ map (fun m => (md_instance m, a)) l.
Proof. induction l as [|m l IH]; intros att; cbn; [rewrite app_nil_r; reflexivity|]. rewrite IH, <- app_assoc. reflexivity. Qed.
Lemma find_leaf i l x : find (is_meter i b d) (map leaf l) = Some x -> exists m, In m l /\ md_instance m = i /\ x = leaf m.
Proof.
  intros H. apply find_some in H. destruct H as [H1 H2]. apply in_map_iff in H1. destruct H1 as (m & <- & H1). cbn in H2. apply andb_true_iff in H2. destruct H2 as [H2 _]. apply andb_true_iff in H2. destruct H2 as [H2 _]. apply Nat.eqb_eq in H2. eauto.
Qed.
(** Which pairs one such appliance adds. *)
Definition adds (a i : nat) : list (nat * nat) := match i with 0 => map (fun m => (md_instance m, a)) (filter md_site elec) | S _ => [(i, a)] end.
Lemma add_single dis att a i s : add_appliance b d (mkImp (map leaf elec) dis att) (a, Some [i]) = Ok s -> s = mkImp (map leaf elec) dis (att ++ adds a i).
Proof.
  cbn [add_appliance i_meters i_disabled i_attached]. destruct i as [|i]; cbn [get_item].
  - rewrite all_in_building. destruct (map leaf elec) as [|x0 l0] eqn:E; [discriminate|]. rewrite <- E. unfold mains. destruct (several_buildings _); [discriminate|]. cbn [g_meters bind]. rewrite site_leaves.
    destruct (filter md_site elec) as [|m [|m' l]] eqn:F; cbn [map bind]; intros H; [discriminate| |]; injection H as <-; cbn [adds]; rewrite F; [reflexivity|].
    rewrite attach_leaves, <- !app_assoc. reflexivity.
  - destruct (find (is_meter (S i) b d) (map leaf elec)) as [x|] eqn:F; [|discriminate]. apply find_leaf in F. destruct F as (m & _ & E & ->). cbn [bind attach leaf_for adds]. intros H. injection H as <-. rewrite E. reflexivity.
Qed.
Lemma adds_of a i m : In m elec -> md_instance m <> 0 ->
  map snd (filter (fun p : nat * nat => fst p =? md_instance m) (adds a i)) = if Nat.eqb i (md_instance m) || (Nat.eqb i 0 && md_site m) then [a] else [].
Proof.
  intros Hm Z. destruct i as [|i]; cbn [adds].
  - replace (0 =? md_instance m) with false by (symmetry; apply Nat.eqb_neq; auto). cbn [orb andb Nat.eqb]. revert Hm ND. induction elec as [|x l IH]; cbn; intros Hm N; [destruct Hm|]. inversion N; subst.
    destruct Hm as [->|Hm].
    + assert (R : map snd (filter (fun p : nat * nat => fst p =? md_instance m) (map (fun m => (md_instance m, a)) (filter md_site l))) = []).
      { clear IH N H2. induction l as [|y l IH]; [reflexivity|]. cbn in *. destruct (md_site y); cbn; [|apply IH; tauto]. destruct (Nat.eqb_spec (md_instance y) (md_instance m)); [tauto|]. apply IH. tauto. }
      destruct (md_site m); cbn [map filter fst]; [rewrite Nat.eqb_refl; cbn [map snd]; rewrite R; reflexivity|exact R].
    + specialize (IH Hm H2). assert (E : (md_instance x =? md_instance m) = false) by (apply Nat.eqb_neq; intros E; apply H1; rewrite E; exact (in_map md_instance _ _ Hm)).
      destruct (md_site x); cbn [map filter fst]; [rewrite E; exact IH|exact IH].
  - cbn [filter fst Nat.eqb andb]. rewrite orb_false_r. destruct (md_instance m); [congruence|]. cbn. destruct (i =? n); reflexivity.
Qed.
Lemma disables_attached l : forall s s', foldM disable_meter l s = Ok s' -> i_attached s' = i_attached s.
Proof.
  induction l as [|x l IH]; intros s s' E; cbn [foldM] in E; [injection E as <-; reflexivity|]. unfold disable_meter at 1 in E. destruct (remove_node x (i_meters s)); cbn [bind] in E; [|discriminate]. apply IH in E. exact E.
Qed.
Lemma mains_thm apps s : Forall (fun a => exists i, a = Some [i]) apps -> import_metadata b d elec apps = Ok s ->
  forall m, In m elec -> md_instance m <> 0 ->
  appliances_of s (md_instance m) = filter (fun k => match nth_error apps k with Some a => declaresb a (md_instance m) || (declaresb a 0 && md_site m) | None => false end) (seq 0 (length apps)).
Proof.
  intros F E m Hm Z. unfold import_metadata in E. destruct (foldM (add_appliance b d) _ _) as [s1|] eqn:A; cbn [bind] in E; [|discriminate].
  unfold appliances_of. rewrite (disables_attached _ _ _ E). clear E.
  assert (G : forall done att, foldM (add_appliance b d) (combine (seq (length done) (length apps)) apps) (mkImp (map leaf elec) [] att) = Ok s1 ->
     map snd (filter (fun p : nat * nat => fst p =? md_instance m) (i_attached s1)) = map snd (filter (fun p : nat * nat => fst p =? md_instance m) att) ++
       filter (fun k => match nth_error (done ++ apps) k with Some a => declaresb a (md_instance m) || (declaresb a 0 && md_site m) | None => false end) (seq (length done) (length apps))).
  { clear A. induction F as [|a l (i & ->) F IH]; intros done att E; cbn [length seq combine foldM] in E.
    - injection E as <-. cbn. rewrite app_nil_r. reflexivity.
    - destruct (add_appliance b d _ _) as [s2|] eqn:A; cbn [bind] in E; [|discriminate]. apply add_single in A. subst s2.
      specialize (IH (done ++ [Some [i]]) (att ++ adds (length done) i)). rewrite app_length, Nat.add_1_r, <- app_assoc in IH. specialize (IH E). cbn [app] in IH. rewrite IH.
      rewrite filter_app, map_app, <- app_assoc. f_equal. rewrite (adds_of _ _ m Hm Z). cbn [length seq filter]. rewrite nth_error_app2 by lia. rewrite Nat.sub_diag. cbn [nth_error declaresb existsb].
      rewrite !orb_false_r, (Nat.eqb_sym i), (Nat.eqb_sym i 0). destruct ((md_instance m =? i) || ((0 =? i) && md_site m)); reflexivity. }
  specialize (G [] [] A). exact G.
Qed.
End Single.
