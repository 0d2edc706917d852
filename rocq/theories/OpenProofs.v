(** Proofs about opening a data set. *)
From Coq Require Import String Permutation Sorted.
From Verif Require Import Base OpenModel OpenSpec.
Import List.
Open Scope list_scope.
Open Scope nat_scope.

(** ** The order of names *)

Lemma ascii_compare_refl a : Ascii.compare a a = Eq.
Proof. unfold Ascii.compare. apply N.compare_refl. Qed.

Lemma compare_eq a b : String.compare a b = Eq <-> a = b.
Proof.
  split; [apply String.compare_eq_iff|intros ->]. induction b as [|x b IH]; [reflexivity|]. cbn. rewrite ascii_compare_refl. exact IH.
Qed.

Lemma ascii_N_inj a b : Ascii.N_of_ascii a = Ascii.N_of_ascii b -> a = b.
Proof. intros H. rewrite <- (Ascii.ascii_N_embedding a), <- (Ascii.ascii_N_embedding b), H. reflexivity. Qed.

Lemma before_trans a : forall b c, before a b -> before b c -> before a c.
Proof.
  unfold before. induction a as [|x a IH]; intros [|y b] [|z c]; cbn; try discriminate; auto.
  unfold Ascii.compare. intros H1 H2.
  destruct (N.compare_spec (Ascii.N_of_ascii x) (Ascii.N_of_ascii y)) as [E1|L1|G1]; [| |discriminate].
  - destruct (N.compare_spec (Ascii.N_of_ascii y) (Ascii.N_of_ascii z)) as [E2|L2|G2]; [| |discriminate].
    + rewrite E1, E2, N.compare_refl. eapply IH; eassumption.
    + rewrite E1. apply N.compare_lt_iff in L2. rewrite L2. reflexivity.
  - destruct (N.compare_spec (Ascii.N_of_ascii y) (Ascii.N_of_ascii z)) as [E2|L2|G2]; [| |discriminate].
    + rewrite <- E2. apply N.compare_lt_iff in L1. rewrite L1. reflexivity.
    + assert (L : (Ascii.N_of_ascii x < Ascii.N_of_ascii z)%N) by lia. apply N.compare_lt_iff in L. rewrite L. reflexivity.
Qed.

Lemma before_irrefl a : ~ before a a.
Proof. unfold before. intros H. rewrite (proj2 (compare_eq a a) eq_refl) in H. discriminate. Qed.

Lemma name_leb_spec a b : name_leb a b = true <-> before a b \/ a = b.
Proof.
  unfold name_leb, before. destruct (String.compare a b) eqn:E; split; intros H; auto; try discriminate.
  - right. apply compare_eq. exact E.
  - destruct H as [H| ->]; [discriminate|]. rewrite (proj2 (compare_eq b b) eq_refl) in E. discriminate.
Qed.

Lemma name_leb_false a b : name_leb a b = false -> before b a.
Proof.
  unfold name_leb, before. rewrite String.compare_antisym. destruct (String.compare b a); cbn; try discriminate; auto.
Qed.

Lemma insert_perm x l : Permutation (insert_name x l) (x :: l).
Proof.
  induction l as [|y l IH]; cbn [insert_name]; [reflexivity|]. destruct (name_leb x y); [reflexivity|]. rewrite IH. apply perm_swap.
Qed.

Lemma sort_perm l : Permutation (sort_names l) l.
Proof. induction l as [|x l IH]; [reflexivity|]. cbn [sort_names fold_right]. rewrite insert_perm. constructor. exact IH. Qed.

Definition le_name a b := before a b \/ a = b.

Lemma le_name_trans a b c : le_name a b -> le_name b c -> le_name a c.
Proof. unfold le_name. intros [H| ->] [K| ->]; auto. left. eapply before_trans; eassumption. Qed.

Lemma insert_sorted x l : StronglySorted le_name l -> StronglySorted le_name (insert_name x l).
Proof.
  induction 1 as [|y l Hs IH Hf]; cbn [insert_name]; [repeat constructor|]. destruct (name_leb x y) eqn:E.
  - apply name_leb_spec in E. constructor; [constructor; assumption|]. constructor; [exact E|]. eapply Forall_impl; [|exact Hf]. intros z Hz. eapply le_name_trans; eassumption.
  - apply name_leb_false in E. constructor; [exact IH|]. apply (Permutation_Forall (Permutation_sym (insert_perm x l))). constructor; [left; exact E|exact Hf].
Qed.

Lemma sort_sorted l : StronglySorted le_name (sort_names l).
Proof. induction l as [|x l IH]; [constructor|]. apply insert_sorted. exact IH. Qed.

Lemma sorted_unique a : forall b, StronglySorted le_name a -> StronglySorted le_name b -> Permutation a b -> a = b.
Proof.
  induction a as [|x a IH]; intros b Ha Hb HP; [apply Permutation_nil in HP; auto|].
  destruct b as [|y b]; [apply Permutation_sym, Permutation_nil in HP; discriminate|].
  inversion Ha as [|? ? Ha1 Ha2]; subst. inversion Hb as [|? ? Hb1 Hb2]; subst.
  assert (Exy : x = y).
  { assert (Ix : In x (y :: b)) by (eapply Permutation_in; [exact HP|left; reflexivity]).
    assert (Iy : In y (x :: a)) by (eapply Permutation_in; [apply Permutation_sym; exact HP|left; reflexivity]).
    destruct Ix as [<-|Ix]; [reflexivity|]. destruct Iy as [<-|Iy]; [reflexivity|].
    rewrite Forall_forall in Ha2, Hb2. specialize (Ha2 _ Iy). specialize (Hb2 _ Ix). destruct Ha2 as [L1|]; [|assumption]. destruct Hb2 as [L2|]; [|auto].
    exfalso. apply (before_irrefl x). eapply before_trans; eassumption. }
  subst y. f_equal. apply IH; auto. eapply Permutation_cons_inv. exact HP.
Qed.

Lemma sort_permutation a b : Permutation a b -> sort_names a = sort_names b.
Proof.
  intros H. apply sorted_unique; try apply sort_sorted. rewrite !sort_perm. exact H.
Qed.

(** ** The dictionary *)

Lemma okey_eqb_spec a b : okey_eqb a b = true <-> a = b.
Proof.
  destruct a as [x|], b as [y|]; cbn; split; intros H; try discriminate; auto.
  - apply Z.eqb_eq in H. congruence.
  - injection H as ->. apply Z.eqb_refl.
Qed.

Lemma okey_refl a : okey_eqb a a = true.
Proof. apply okey_eqb_spec. reflexivity. Qed.

Lemma get_put {V} (d : list (option Z * V)) k v k' : get_building k' (put d k v) = if okey_eqb k' k then Some v else get_building k' d.
Proof.
  unfold get_building. induction d as [|[k0 v0] d IH]; cbn [put find fst].
  - destruct (okey_eqb k' k); reflexivity.
  - destruct (okey_eqb k k0) eqn:E; cbn [find fst].
    + apply okey_eqb_spec in E. subst k0. destruct (okey_eqb k' k); reflexivity.
    + destruct (okey_eqb k' k0) eqn:E0; [|exact IH]. apply okey_eqb_spec in E0. subst k'. destruct (okey_eqb k0 k) eqn:E1; [|reflexivity].
      apply okey_eqb_spec in E1. subst. rewrite okey_refl in E. discriminate.
Qed.

Lemma put_keys {V} (d : list (option Z * V)) k v : NoDup (map fst d) -> NoDup (map fst (put d k v)) /\ forall x, In x (map fst (put d k v)) <-> x = k \/ In x (map fst d).
Proof.
  induction d as [|[k0 v0] d IH]; intros ND; cbn [put map fst].
  - split; [repeat constructor; intros []|]. cbn. intuition congruence.
  - cbn [map fst] in ND. apply NoDup_cons_iff in ND. destruct ND as [Hn ND]. destruct (okey_eqb k k0) eqn:E; cbn [map fst].
    + apply okey_eqb_spec in E. subst k0. split; [constructor; assumption|]. cbn. intuition congruence.
    + destruct (IH ND) as [I1 I2]. split.
      * constructor; [|exact I1]. intros H. apply I2 in H. destruct H as [->|H]; [rewrite okey_refl in E; discriminate|contradiction].
      * intros x. cbn. rewrite I2. intuition congruence.
Qed.

Lemma put_new {V} (d : list (option Z * V)) k v : ~ In k (map fst d) -> put d k v = d ++ [(k, v)].
Proof.
  induction d as [|[k0 v0] d IH]; intros H; cbn [put]; [reflexivity|]. destruct (okey_eqb k k0) eqn:E.
  - apply okey_eqb_spec in E. exfalso. apply H. left. auto.
  - cbn. f_equal. apply IH. intros Hin. apply H. right. exact Hin.
Qed.

(** ** Opening *)

Section Open.
  Context {R E : Type} (load_metadata : string -> res (building_md R)) (import_elec : R -> option Z -> option string -> res E).
  Variable name : option string.
  Notation imp := (import_building load_metadata import_elec name).
  Notation step := (fun d key => do b <- imp key; Ok (put d (b_instance b) b)).
  Notation open := (OpenModel.open load_metadata import_elec name).

  Lemma described_spec key b : described load_metadata import_elec name key b <-> imp key = Ok b.
  Proof.
    unfold described, import_building. destruct (load_metadata key) as [md|x]; cbn [bind].
    2: { split; [intros (md & elec & H & _); discriminate|discriminate]. }
    split.
    - intros (md' & elec & [= <-] & H1 & H2 & H3 & H4). destruct b as [i d e]. cbn in *. subst i e.
      assert (Ed : match md_dataset md with Some d0 => Some d0 | None => name end = d) by (destruct H2 as [[-> H2]|[-> ->]]; [destruct (md_dataset md); [reflexivity|contradiction]|reflexivity]).
      rewrite Ed, H3. reflexivity.
    - destruct (import_elec _ _ _) as [e|x] eqn:Ee; [|discriminate]. cbn [bind]. intros [= <-]. exists md, e. split; [reflexivity|]. split; [reflexivity|]. cbn.
      split; [|auto]. destruct (md_dataset md); [left; split; [reflexivity|discriminate]|right; auto].
  Qed.

  Lemma fails_spec key x : fails load_metadata import_elec name key x <-> imp key = Err x.
  Proof.
    unfold fails, import_building. destruct (load_metadata key) as [md|x']; cbn [bind].
    - split.
      + intros [H|(md' & d & [= <-] & H2 & H3)]; [discriminate|].
        assert (Ed : match md_dataset md with Some d0 => Some d0 | None => name end = d) by (destruct H2 as [[-> H2]|[-> ->]]; [destruct (md_dataset md); [reflexivity|contradiction]|reflexivity]).
        rewrite Ed, H3. reflexivity.
      + destruct (import_elec _ _ _) as [e|y] eqn:Ee; [discriminate|]. cbn [bind]. intros [= <-]. right.
        exists md. eexists. split; [reflexivity|]. split; [|exact Ee]. destruct (md_dataset md); [left; split; [reflexivity|discriminate]|right; auto].
    - split; [intros [[= ->]|(md & d & H & _)]; [reflexivity|discriminate]|]. intros [= ->]. left. reflexivity.
  Qed.

  Lemma fold_ok l : forall d d', foldM step l d = Ok d' -> NoDup (map fst d) -> NoDup l ->
    NoDup (map fst d') /\
    forall k b, get_building k d' = Some b <->
      (exists n r1 r2, l = r1 ++ n :: r2 /\ imp n = Ok b /\ b_instance b = k /\ forall n' b', In n' r2 -> imp n' = Ok b' -> b_instance b' <> k) \/
      (get_building k d = Some b /\ forall n' b', In n' l -> imp n' = Ok b' -> b_instance b' <> k).
  Proof.
    induction l as [|n l IH]; intros d d' H ND NL; cbn [foldM] in H.
    { injection H as <-. split; [exact ND|]. intros k b. split.
      - intros G. right. split; [exact G|]. intros n' b' [].
      - intros [(n & r1 & r2 & Hn & _)|[G _]]; [destruct r1; discriminate|exact G]. }
    destruct (imp n) as [b0|] eqn:En; [|discriminate]. cbn [bind] in H. apply NoDup_cons_iff in NL. destruct NL as [Hn NL].
    destruct (IH _ _ H (proj1 (put_keys d (b_instance b0) b0 ND)) NL) as [I1 I2]. split; [exact I1|]. intros k b. rewrite I2, get_put. split.
    - intros [(m & r1 & r2 & -> & Hm)|[G Hno]].
      + left. exists m, (n :: r1), r2. auto.
      + destruct (okey_eqb k (b_instance b0)) eqn:Ek.
        * apply okey_eqb_spec in Ek. injection G as <-. left. exists n, [], l. auto.
        * right. split; [exact G|]. intros n' b' [<-|Hin] Hb'; [|eapply Hno; eassumption]. rewrite En in Hb'. injection Hb' as <-. intros Hk. rewrite <- Hk, okey_refl in Ek. discriminate.
    - intros [(m & r1 & r2 & Hl & Hm1 & Hm2 & Hm3)|[G Hno]].
      + destruct r1 as [|y r1]; injection Hl as <- ->.
        * right. rewrite En in Hm1. injection Hm1 as <-. subst k. rewrite okey_refl. auto.
        * left. exists m, r1, r2. auto.
      + right. assert (Hk : b_instance b0 <> k) by (apply (Hno n b0); [left; reflexivity|exact En]).
        destruct (okey_eqb k (b_instance b0)) eqn:Ek; [apply okey_eqb_spec in Ek; congruence|]. split; [exact G|]. intros n' b' Hin. apply Hno. right. exact Hin.
  Qed.

  Lemma sorted_split l r1 n r2 : StronglySorted le_name l -> NoDup l -> l = r1 ++ n :: r2 -> forall m, In m l -> (In m r2 <-> before n m).
  Proof.
    intros HS ND -> m Hm. assert (Hs2 : forall a q, StronglySorted le_name (q ++ a :: r2) -> Forall (le_name a) r2).
    { clear. intros a q. induction q as [|x q IH]; intros H; inversion H; subst; auto. }
    assert (Hs1 : forall q, StronglySorted le_name (q ++ n :: r2) -> forall x, In x q -> le_name x n).
    { clear. induction q as [|y q IH]; intros H x [].
      - subst y. inversion H as [|? ? _ Hf]; subst. rewrite Forall_forall in Hf. apply Hf. apply in_or_app. right. left. reflexivity.
      - inversion H; subst. apply IH; assumption. }
    specialize (Hs2 n r1 HS). specialize (Hs1 r1 HS). apply NoDup_remove_2 in ND. split.
    - intros Hin. rewrite Forall_forall in Hs2. destruct (Hs2 _ Hin) as [L| ->]; [exact L|]. exfalso. apply ND. apply in_or_app. right. exact Hin.
    - intros L. apply in_app_or in Hm. destruct Hm as [Hm|[<-|Hm]]; [|exfalso; eapply before_irrefl; exact L|exact Hm].
      exfalso. destruct (Hs1 _ Hm) as [L'| ->]; [|eapply before_irrefl; exact L]. eapply before_irrefl. eapply before_trans; eassumption.
  Qed.

  Lemma open_permutation a b : Permutation a b -> open a = open b.
  Proof. intros H. unfold OpenModel.open. rewrite (sort_permutation a b H). reflexivity. Qed.

  Lemma open_found elements d : NoDup elements -> open elements = Ok d ->
    NoDup (map fst d) /\
    forall k b, get_building k d = Some b <->
      exists n, In n elements /\ described load_metadata import_elec name n b /\ b_instance b = k /\
        forall n' b', In n' elements -> described load_metadata import_elec name n' b' -> b_instance b' = k -> n' = n \/ before n' n.
  Proof.
    intros ND H. assert (NS : NoDup (sort_names elements)) by (apply (Permutation_NoDup (Permutation_sym (sort_perm elements))); exact ND).
    destruct (fold_ok _ _ _ H (NoDup_nil _) NS) as [I1 I2]. split; [exact I1|]. intros k b. rewrite I2.
    assert (Ein : forall x, In x (sort_names elements) <-> In x elements).
    { intros x. split; apply Permutation_in; [|apply Permutation_sym]; apply sort_perm. }
    split.
    - intros [(n & r1 & r2 & Hl & Hn1 & Hn2 & Hn3)|[G _]]; [|discriminate]. assert (Hin : In n (sort_names elements)) by (rewrite Hl; apply in_or_app; right; left; reflexivity).
      exists n. split; [apply Ein; exact Hin|]. split; [apply described_spec; exact Hn1|]. split; [exact Hn2|]. intros n' b' Hn' Hb' Hk.
      apply Ein in Hn'. apply described_spec in Hb'. destruct (String.compare n' n) eqn:Ec; [left; apply compare_eq; exact Ec|right; exact Ec|].
      exfalso. apply (Hn3 n' b'); [|exact Hb'|exact Hk]. apply (sorted_split _ _ _ _ (sort_sorted elements) NS Hl); [exact Hn'|]. unfold before. rewrite String.compare_antisym, Ec. reflexivity.
    - intros (n & Hin & Hb & Hk & Hlast). left. apply Ein in Hin. destruct (in_split _ _ Hin) as (r1 & r2 & Hl). exists n, r1, r2. split; [exact Hl|]. split; [apply described_spec; exact Hb|]. split; [exact Hk|].
      intros n' b' Hn' Hb' Hk'. assert (Hin' : In n' (sort_names elements)) by (rewrite Hl; apply in_or_app; right; right; exact Hn').
      apply (sorted_split _ _ _ _ (sort_sorted elements) NS Hl n' Hin') in Hn'. apply Ein in Hin'. apply described_spec in Hb'.
      destruct (Hlast n' b' Hin' Hb' Hk') as [->|L]; [eapply before_irrefl; exact Hn'|]. eapply before_irrefl. eapply before_trans; eassumption.
  Qed.

  Lemma fold_err l : forall d x, foldM step l d = Err x <-> exists r1 n r2, l = r1 ++ n :: r2 /\ imp n = Err x /\ Forall (fun m => exists b, imp m = Ok b) r1.
  Proof.
    induction l as [|n l IH]; intros d x; cbn [foldM].
    { split; [discriminate|]. intros (r1 & n & r2 & H & _). destruct r1; discriminate. }
    destruct (imp n) as [b|y] eqn:En; cbn [bind].
    - rewrite IH. split.
      + intros (r1 & m & r2 & -> & Hm & Hf). exists (n :: r1), m, r2. split; [reflexivity|]. split; [exact Hm|]. constructor; [exists b; exact En|exact Hf].
      + intros (r1 & m & r2 & Hl & Hm & Hf). destruct r1 as [|y r1]; injection Hl as <- ->; [congruence|]. apply Forall_cons_iff in Hf. destruct Hf as [_ Hf]. exists r1, m, r2. auto.
    - split.
      + intros [= ->]. exists [], n, l. auto.
      + intros (r1 & m & r2 & Hl & Hm & Hf). destruct r1 as [|z r1]; injection Hl as <- ->; [congruence|]. apply Forall_cons_iff in Hf. destruct Hf as [[b Hb] _]. congruence.
  Qed.

  Lemma open_errors elements x : NoDup elements ->
    (open elements = Err x <-> exists n, In n elements /\ fails load_metadata import_elec name n x /\
       forall n', In n' elements -> before n' n -> exists b, described load_metadata import_elec name n' b).
  Proof.
    intros ND. assert (NS : NoDup (sort_names elements)) by (apply (Permutation_NoDup (Permutation_sym (sort_perm elements))); exact ND).
    assert (Ein : forall x, In x (sort_names elements) <-> In x elements).
    { intros y. split; apply Permutation_in; [|apply Permutation_sym]; apply sort_perm. }
    unfold OpenModel.open. rewrite fold_err. split.
    - intros (r1 & n & r2 & Hl & Hn & Hf). assert (Hin : In n (sort_names elements)) by (rewrite Hl; apply in_or_app; right; left; reflexivity).
      exists n. split; [apply Ein; exact Hin|]. split; [apply fails_spec; exact Hn|]. intros n' Hn' L. apply Ein in Hn'.
      assert (Hn2 := Hn'). rewrite Hl in Hn2. apply in_app_or in Hn2. destruct Hn2 as [H1|[<-|H2]].
      + rewrite Forall_forall in Hf. destruct (Hf _ H1) as [b Hb]. exists b. apply described_spec. exact Hb.
      + exfalso. eapply before_irrefl. exact L.
      + apply (sorted_split _ _ _ _ (sort_sorted elements) NS Hl n' Hn') in H2. exfalso. eapply before_irrefl. eapply before_trans; eassumption.
    - intros (n & Hin & Hn & Hall). apply Ein in Hin. destruct (in_split _ _ Hin) as (r1 & r2 & Hl). exists r1, n, r2. split; [exact Hl|]. split; [apply fails_spec; exact Hn|].
      apply Forall_forall. intros m Hm. assert (Hm' : In m (sort_names elements)) by (rewrite Hl; apply in_or_app; left; exact Hm).
      destruct (String.compare m n) eqn:Ec.
      + apply compare_eq in Ec. subst m. exfalso. rewrite Hl in NS. apply NoDup_remove_2 in NS. apply NS. apply in_or_app. left. exact Hm.
      + destruct (Hall m) as [b Hb]; [apply Ein; exact Hm'|exact Ec|]. exists b. apply described_spec. exact Hb.
      + assert (L : before n m) by (unfold before; rewrite String.compare_antisym, Ec; reflexivity). apply (sorted_split _ _ _ _ (sort_sorted elements) NS Hl m Hm') in L.
        exfalso. rewrite Hl in NS. clear -NS Hm L. induction r1 as [|y r1 IH]; [contradiction|]. cbn in NS. apply NoDup_cons_iff in NS. destruct NS as [Hn NS]. destruct Hm as [->|Hm]; [|auto].
        apply Hn. apply in_or_app. right. right. exact L.
  Qed.

  Lemma fold_distinct l : forall d d', foldM step l d = Ok d' ->
    NoDup (map fst d ++ map (fun n => match imp n with Ok b => b_instance b | Err _ => None end) l) ->
    exists bs, d' = d ++ map (fun b => (b_instance b, b)) bs /\ Forall2 (fun n b => imp n = Ok b) l bs.
  Proof.
    induction l as [|n l IH]; intros d d' H ND; cbn [foldM] in H.
    { injection H as <-. exists []. cbn. rewrite app_nil_r. auto. }
    destruct (imp n) as [b|] eqn:En; [|discriminate]. cbn [bind] in H. cbn [map] in ND. rewrite En in ND.
    rewrite put_new in H.
    2: { intros Hin. apply NoDup_remove_2 in ND. apply ND. apply in_or_app. left. exact Hin. }
    destruct (IH _ _ H) as (bs & E1 & E2).
    { rewrite map_app. cbn [map fst]. rewrite <- app_assoc. exact ND. }
    exists (b :: bs). split; [rewrite E1, <- app_assoc; reflexivity|]. constructor; assumption.
  Qed.

  Lemma open_order elements d : NoDup elements -> open elements = Ok d ->
    (forall n n' b b', In n elements -> In n' elements -> described load_metadata import_elec name n b -> described load_metadata import_elec name n' b' ->
       b_instance b = b_instance b' -> n = n') ->
    exists names, Permutation names elements /\ StronglySorted before names /\
      Forall2 (fun n p => described load_metadata import_elec name n (snd p) /\ fst p = b_instance (snd p)) names d.
  Proof.
    intros ND H Hd. assert (NS : NoDup (sort_names elements)) by (apply (Permutation_NoDup (Permutation_sym (sort_perm elements))); exact ND).
    assert (Ein : forall x, In x (sort_names elements) -> In x elements) by (intros y; apply Permutation_in, sort_perm).
    assert (Hall : forall n, In n (sort_names elements) -> exists b, imp n = Ok b).
    { intros n Hn. destruct (imp n) as [b|x] eqn:En; [eauto|]. exfalso.
      assert (Hx : exists x, foldM step (sort_names elements) [] = Err x); [|destruct Hx as [y Hy]; unfold OpenModel.open in H; congruence].
      clear -Hn En. generalize (@nil (option Z * building E)) as d. revert Hn. generalize (sort_names elements). induction l as [|m l IH]; intros Hn d; [destruct Hn|]. cbn [foldM].
      destruct (imp m) as [b|y] eqn:Em; cbn [bind]; [|eauto]. destruct Hn as [->|Hn]; [congruence|]. apply IH. exact Hn. }
    destruct (fold_distinct _ _ _ H) as (bs & -> & F).
    { cbn. assert (G : forall l, (forall n, In n l -> In n (sort_names elements)) -> NoDup l -> NoDup (map (fun n => match imp n with Ok b => b_instance b | Err _ => None end) l)).
      { induction l as [|n l IH]; intros Hs Hl; [constructor|]. apply NoDup_cons_iff in Hl. destruct Hl as [Hn Hl]. cbn [map]. constructor; [|apply IH; [intros; apply Hs; right; assumption|exact Hl]].
        intros Hin. apply in_map_iff in Hin. destruct Hin as (m & Em & Hm). destruct (Hall n (Hs n (or_introl eq_refl))) as [b Hb]. destruct (Hall m (Hs m (or_intror Hm))) as [b' Hb'].
        rewrite Hb, Hb' in Em. apply Hn. rewrite (Hd n m b b'); [exact Hm| | | | |congruence].
        - apply Ein, Hs. left. reflexivity.
        - apply Ein, Hs. right. exact Hm.
        - apply described_spec. exact Hb.
        - apply described_spec. exact Hb'. }
      apply G; [auto|exact NS]. }
    exists (sort_names elements). split; [apply sort_perm|]. split.
    - pose proof (sort_sorted elements) as HS. clear -HS NS. induction HS as [|x l Hs IH Hf]; [constructor|]. apply NoDup_cons_iff in NS. destruct NS as [Hn NS]. constructor; [apply IH; exact NS|].
      apply Forall_forall. intros y Hy. rewrite Forall_forall in Hf. destruct (Hf y Hy) as [L| ->]; [exact L|contradiction].
    - cbn [List.app]. clear -F. induction F as [|n b l bs Hb F IH]; constructor; [|exact IH]. cbn. split; [apply described_spec; exact Hb|reflexivity].
  Qed.
End Open.

Lemma digit_before i j : 1 <= i <= 9 -> 1 <= j <= 9 -> (before (digit_name i) (digit_name j) <-> i < j).
Proof.
  intros Hi Hj. do 10 (destruct i as [|i]; [do 10 (destruct j as [|j]; [unfold before; vm_compute; split; intros; try lia; try discriminate; reflexivity|]); lia|]). lia.
Qed.

Opaque digit_name.

Lemma save_fails {E : Type} (d : list (option Z * building E)) : d <> [] -> save d = Err AttributeError.
Proof. destruct d; [contradiction|reflexivity]. Qed.

Lemma open_digits {R E : Type} (load_metadata : string -> res (building_md R)) (import_elec : R -> option Z -> option string -> res E) name ids d :
  NoDup ids -> Forall (fun i => 1 <= i <= 9) ids ->
  (forall i b, In i ids -> described load_metadata import_elec name (digit_name i) b -> b_instance b = Some (Z.of_nat i)) ->
  OpenModel.open load_metadata import_elec name (map digit_name ids) = Ok d ->
  exists sorted, Permutation sorted ids /\ StronglySorted lt sorted /\ map fst d = map (fun i => Some (Z.of_nat i)) sorted.
Proof.
  intros ND HR Hb H.
  assert (Inj : forall i j, In i ids -> In j ids -> digit_name i = digit_name j -> i = j).
  { intros i j Hi Hj E0. rewrite Forall_forall in HR. destruct (Nat.lt_trichotomy i j) as [L|[L|L]]; [|exact L|].
    - apply (proj2 (digit_before i j (HR i Hi) (HR j Hj))) in L. rewrite E0 in L. exfalso. eapply before_irrefl. exact L.
    - apply (proj2 (digit_before j i (HR j Hj) (HR i Hi))) in L. rewrite E0 in L. exfalso. eapply before_irrefl. exact L. }
  assert (NM : NoDup (map digit_name ids)).
  { clear -ND Inj. induction ids as [|i ids IH]; [constructor|]. apply NoDup_cons_iff in ND. destruct ND as [Hn ND]. cbn. constructor.
    - intros Hin. apply in_map_iff in Hin. destruct Hin as (j & Ej & Hj). apply Hn. rewrite (Inj i j); auto; [left; reflexivity|right; exact Hj].
    - apply IH; [exact ND|]. intros a b Ha Hb. apply Inj; right; assumption. }
  destruct (open_order load_metadata import_elec name _ _ NM H) as (names & P & S0 & F).
  { intros n n' b b' Hn Hn' Db Db' E0. apply in_map_iff in Hn. destruct Hn as (i & <- & Hi). apply in_map_iff in Hn'. destruct Hn' as (j & <- & Hj).
    rewrite (Hb i b Hi Db), (Hb j b' Hj Db') in E0. injection E0 as E0. apply Nat2Z.inj in E0. congruence. }
  destruct (Permutation_map_inv _ _ P) as (sorted & -> & Ps). exists sorted. split; [apply Permutation_sym; exact Ps|].
  assert (Hin : forall i, In i sorted -> In i ids) by (intros i; apply Permutation_in, Permutation_sym; exact Ps).
  split.
  - clear -S0 HR Hin. rewrite Forall_forall in HR. induction sorted as [|i l IH]; [constructor|]. cbn in S0. inversion S0 as [|? ? H1 H2]; subst. constructor.
    + apply IH; [exact H1|]. intros j Hj. apply Hin. right. exact Hj.
    + apply Forall_forall. intros j Hj. rewrite Forall_forall in H2. apply (proj1 (digit_before i j (HR i (Hin i (or_introl eq_refl))) (HR j (Hin j (or_intror Hj))))). apply H2. apply in_map. exact Hj.
  - clear -F Hb Hin. revert d F. induction sorted as [|i l IH]; intros d F; inversion F as [|? p ? d0 [H1 H2] F']; subst; [reflexivity|]. cbn [map]. rewrite H2, (Hb i _ (Hin i (or_introl eq_refl)) H1). f_equal.
    apply IH; [intros j Hj; apply Hin; right; exact Hj|exact F'].
Qed.
