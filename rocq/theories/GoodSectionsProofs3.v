(** Good sections of a loaded period, and counterexamples. *)
From Verif Require Import Base TimeFrameModel TimeFrameSpec TimeFrameProofs SortLib ResultsModel ResultsSpec ResultsProofs
  StoreModel StoreSpec StoreProofs StoreProofs2 GoodSectionsModel GoodSectionsSpec GoodSectionsProofs GoodSectionsProofs2.
From Coq Require Import Sorted Permutation.
Open Scope Z_scope.

Lemma section_chain {A} (rows : list (sample A)) window section w m n c :
  increasing rows -> (1 <= c)%nat -> half_open window -> half_open section -> intersection window section = Ok w ->
  visible rows window section m -> servable rows window c section m -> (2 <= length m)%nat ->
  exists cs s e, hdf_load_section rows window section n c = (cs, None) /\ delivers cs m c /\
    chain s (map c_tf cs) e /\ chain_ends w m s e.
Proof.
  intros Hinc Hc Hw Hs Hiw Hv [_ Hunb] H2.
  destruct (intersection_spec window section) as (w' & Hiw' & Hi & Hem & _). rewrite Hiw in Hiw'. injection Hiw' as <-.
  destruct (tf_empty w) eqn:E.
  - assert (m = []).
    { eapply is_filter_none; [|exact Hv]. cbv beta. intros x. apply Hem. reflexivity. }
    subst m. cbn in H2. lia.
  - pose proof (visible_period _ _ _ _ _ Hw Hs Hiw Hv) as Hp.
    destruct (tf_start w) as [s|] eqn:Es; [|destruct (tf_end w) as [e|] eqn:Ee].
    1,2: destruct (section_bounded rows window section w m n c Hinc Hc Hiw E) as (B0 & B1 & B2);
         [first [left; congruence|right; congruence]|exact Hp|];
         destruct (B2 H2) as (cs & H3 & H4 & s' & e' & H5 & H6); exists cs, s', e'; split; [exact H3|]; split; [exact H4|]; split; [exact H5|]; exact H6.
    assert (Hall : m = rows).
    { apply rows_of_period_filter in Hp. rewrite Hp. apply filter_all. rewrite Forall_forall. intros r _.
      apply inTFcb_spec. unfold inTFc. rewrite Es, Ee. repeat split; [exact E|discriminate|discriminate]. }
    subst m.
    destruct (section_unbounded rows window section w n c Hinc Hc Hiw E Es Ee) as (_ & U1 & _).
    destruct U1 as (cs & Hcs & D & s & e & Hch & Hf & Hl).
    + exact H2.
    + destruct Hunb as [H|H]; [|subst rows; cbn in H2; lia|exact H].
      destruct (intersection_cases window section) as [(Em & E')|[(Em & _ & E')|(Em & _ & E')]];
        rewrite E' in Hiw; injection Hiw as <-; try discriminate.
      apply orb_false_iff in Em. destruct Em as [Em1 Em2].
      unfold tf_start, tf_end in Es, Ee. simpl in Es, Ee.
      unfold isect_start in Es. unfold isect_end in Ee.
      unfold unbounded_request.
      destruct (tf_start section), (tf_start window), (tf_end section), (tf_end window); try discriminate.
      repeat split; assumption.
    + exists cs, s, e. split; [exact Hcs|]. split; [exact D|]. split; [exact Hch|]. split; right; split; assumption.
Qed.

Lemma last_closed_unique e ts us : last_closed e ts us -> forall us', last_closed e ts us' -> us = us'.
Proof.
  induction 1 as [|t u H1 H2 H3 H4 H5|t ts us Hne H IH]; intros us' H'; inversion H' as [|t' u' K1 K2 K3 K4 K5|t' ts' us'' Kne K]; subst; try reflexivity; try contradiction.
  - destruct u as [a b en em inc], u' as [a' b' en' em' inc']. unfold tf_start, tf_end in *. cbn in *. subst en en'. congruence.
  - f_equal. apply IH. exact K.
Qed.

Lemma nan_free_vt m : nan_free m -> vt m = map fst m.
Proof. intros H. unfold vt. rewrite filter_all by exact H. reflexivity. Qed.

Lemma nan_free_usable rows n ch : nan_free rows -> (1 <= n)%nat -> look_ahead_right rows n ch -> (2 <= length (c_rows ch))%nat ->
  usable_chunk ch.
Proof.
  intros Hnan Hn (pre & post & -> & EL) H2. unfold nan_free in Hnan. apply Forall_app in Hnan. destruct Hnan as [_ Hnan].
  apply Forall_app in Hnan. destruct Hnan as [N1 N2]. split.
  - exists (map fst (c_rows ch)). split; [apply vt_spec; symmetry; apply nan_free_vt; exact N1|]. rewrite map_length. exact H2.
  - intros l El. rewrite El in EL. destruct (Nat.eqb n 0) eqn:En; [discriminate|]. injection EL as ->.
    destruct post as [|x post]; [left; destruct n; reflexivity|right]. exists x. destruct n; [lia|].
    split; [left; reflexivity|exact (Forall_inv N2)].
Qed.

Lemma load_good_sections msp rows window section m rs last :
  0 <= msp -> increasing rows -> nan_free rows -> half_open window -> half_open section ->
  visible rows window section m -> (2 <= length m)%nat -> runs_of msp (map fst m) rs -> last_of (map fst m) last ->
  exists b e ts us, (b = true <-> goes_on msp rows last) /\
    (b = true -> (tf_end window = Some e \/ tf_end section = Some e) /\
                 forall i, inTF window i -> inTF section i -> i < e) /\
    frames_of_runs b false rs ts /\ last_closed e ts us /\
    forall n c, (1 <= n)%nat -> (1 <= c)%nat -> servable rows window c section m ->
      good_sections_of msp (hdf_load rows window [section] n c) = Ok us.
Proof.
  intros Hm Hinc Hnan Hw Hs Hv H2 Hr Hlast.
  destruct (intersection_spec window section) as (w & Hiw & Hi & Hem & _).
  assert (Hmn : nan_free m).
  { unfold nan_free. rewrite Forall_forall. intros x Hx. apply (is_filter_in _ _ _ _ Hv) in Hx. unfold nan_free in Hnan. rewrite Forall_forall in Hnan. apply Hnan. tauto. }
  assert (Hvt : valid_times m (map fst m)) by (apply vt_spec; symmetry; apply nan_free_vt; exact Hmn).
  assert (Hb : exists b, b = true <-> goes_on msp rows last).
  { exists (existsb (fun r => snd r && (last <? fst r) && (fst r <=? last + msp)) rows). rewrite existsb_exists. unfold goes_on.
    split; intros (r & A & B); exists r; (split; [exact A|]).
    - apply andb_true_iff in B. destruct B as [B B3]. apply andb_true_iff in B. destruct B as [B1 B2]. split; [exact B1|lia].
    - destruct B as [-> B]. cbn. lia. }
  destruct Hb as [b Hb].
  assert (Hlm : exists z, In z m /\ fst z = last /\ last_opt m = Some z).
  { apply last_opt_last_of in Hlast. rewrite last_opt_map in Hlast. destruct (last_opt m) as [z|] eqn:E; [|discriminate].
    injection Hlast as <-. exists z. split; [apply last_opt_in; exact E|]. split; reflexivity. }
  destruct Hlm as (z & Hz & Ez & Ezl).
  (* if the data goes on, the period has an end *)
  assert (Hend : goes_on msp rows last -> exists e, tf_end w = Some e).
  { intros (r & Hin & _ & Hr1). destruct (tf_end w) as [e|] eqn:Ee; [exists e; reflexivity|]. exfalso.
    assert (In r m).
    { apply (is_filter_in _ _ _ _ Hv). split; [exact Hin|]. apply Hi.
      apply (is_filter_in _ _ _ _ Hv) in Hz. destruct Hz as [_ Hz]. apply Hi in Hz. destruct Hz as (Z1 & Z2 & _).
      split; [exact Z1|]. split; [|rewrite Ee; discriminate]. intros s Es. specialize (Z2 _ Es). lia. }
    pose proof (is_filter_sorted _ _ _ Hv (proj1 (increasing_sorted rows) Hinc)) as HSm.
    clear -H Hr1 Ez Ezl HSm. subst last.
    assert (fst r <= fst z); [|lia]. clear Hr1. induction m as [|a [|a' m] IH]; [destruct H| |].
    - injection Ezl as <-. destruct H as [<-|[]]. lia.
    - apply StronglySorted_inv in HSm. destruct HSm as [S1 S2]. destruct H as [<-|H]; [|apply IH; assumption].
      apply (last_opt_in (a' :: m)) in Ezl. rewrite Forall_forall in S2. specialize (S2 _ Ezl). unfold slt in S2. lia. }
  set (e := match tf_end w with Some e => e | None => last end).
  assert (He : b = true -> (tf_end window = Some e \/ tf_end section = Some e) /\ forall i, inTF window i -> inTF section i -> i < e).
  { intros Hbt. destruct (Hend (proj1 Hb Hbt)) as [e' Ee]. subst e. rewrite Ee. split.
    - destruct (intersection_cases window section) as [(Em & E')|[(Em & _ & E')|(Em & _ & E')]];
        rewrite E' in Hiw; injection Hiw as <-; try discriminate. unfold tf_end at 1 in Ee. cbn in Ee. unfold isect_end in Ee.
      destruct (tf_end section) as [a|], (tf_end window) as [a'|]; try discriminate; injection Ee as Ee; try (subst; auto).
      destruct (Z.min_dec a' a) as [M|M]; destruct (Z.min_dec a a') as [M2|M2];
        first [left; f_equal; lia|right; f_equal; lia].
    - intros i H1 H3. destruct (proj2 (Hi i) (conj H1 H3)) as (_ & _ & H4). apply H4. exact Ee. }
  (* the result for one way of loading *)
  assert (One : forall n c, (1 <= n)%nat -> (1 <= c)%nat -> servable rows window c section m ->
    exists ts us, frames_of_runs b false rs ts /\ last_closed e ts us /\
      good_sections_of msp (hdf_load rows window [section] n c) = Ok us).
  { intros n c Hn Hc Hsv.
    destruct (section_chain rows window section w m n c Hinc Hc Hw Hs Hiw Hv Hsv H2) as (cs & s & e' & Hcs & Hd & Hch & Hce).
    assert (Eload : hdf_load rows window [section] n c = (cs, None)).
    { cbn [hdf_load]. rewrite Hcs. unfold gen_app. cbn [fst snd]. rewrite app_nil_r. reflexivity. }
    assert (HLk : Forall (look_ahead_right rows n) cs).
    { rewrite Forall_forall. intros ch Hch2. apply (load_look rows window [section] n c); [rewrite Eload; exact Hch2|].
      destruct Hd as (_ & _ & Hd). rewrite Forall_forall in Hd. specialize (Hd _ Hch2). destruct (c_rows ch); [cbn in Hd; lia|discriminate]. }
    assert (HUs : Forall usable_chunk cs).
    { rewrite Forall_forall in *. intros ch Hch2. apply (nan_free_usable rows n); [exact Hnan|exact Hn|apply HLk; exact Hch2|].
      destruct Hd as (_ & _ & Hd). rewrite Forall_forall in Hd. specialize (Hd _ Hch2). lia. }
    assert (Ee : e' = e).
    { subst e. destruct Hce as [_ [Hce|[Hce (y & r & -> & Ey)]]]; rewrite Hce; [reflexivity|].
      rewrite last_opt_snoc in Ezl. congruence. }
    subst e'.
    destruct (chunks_combined msp rows n cs m c s e (map fst m) rs last Hm Hn Hinc) as (b' & ts & us & R1 & R2 & R3 & R4); try assumption.
    - intros ->. cbn in H2. lia.
    - intros Hg x Hx. apply (is_filter_in _ _ _ _ Hv) in Hx. destruct Hx as [_ [X1 X2]].
      apply He; [apply Hb; exact Hg|exact X1|exact X2].
    - assert (b' = b).
      { destruct b, b'; try reflexivity; exfalso.
        - assert (false = true) by (apply R1, Hb; reflexivity). discriminate.
        - assert (false = true) by (apply Hb, R1; reflexivity). discriminate. }
      subst b'. exists ts, us. rewrite Eload. auto. }
  (* pick a chunk size that serves the request *)
  destruct (One 1%nat (S (length rows)) ltac:(lia) ltac:(lia)) as (ts & us & T1 & T2 & T3).
  { split; [lia|]. intros _. right. rewrite Nat.mod_small; [|lia].
    assert (length m <= length rows)%nat; [|lia]. clear -Hv. induction Hv; cbn; lia. }
  exists b, e, ts, us. split; [exact Hb|]. split; [exact He|]. split; [exact T1|]. split; [exact T2|].
  intros n c Hn Hc Hsv. destruct (One n c Hn Hc Hsv) as (ts' & us' & U1 & U2 & U3).
  rewrite U3. f_equal. rewrite <- (frames_unique _ _ _ _ T1 _ U1) in U2. symmetry. apply (last_closed_unique _ _ _ T2 _ U2).
Qed.

Lemma load_no_rows msp rows window section n c :
  increasing rows -> (1 <= c)%nat -> half_open window -> half_open section -> visible rows window section [] ->
  (unbounded_request window section -> rows = []) ->
  good_sections_of msp (hdf_load rows window [section] n c) = Ok [].
Proof.
  intros Hinc Hc Hw Hs Hv Hu.
  destruct (section_served_ok rows window section [] n c Hinc Hc Hw Hs Hv) as (cs & E & S1 & _).
  { split; [discriminate|]. intros U. left. apply Hu, U. }
  destruct (S1 eq_refl) as [t ->]. cbn [hdf_load]. rewrite E. reflexivity.
Qed.

(** ** Counterexamples *)

Definition full := mkTF (Some 0) (Some 2000) true false false.

Lemma sparse_chunk_wrong : exists (rows : list (sample bool)) msp us us',
  increasing rows /\
  good_sections_of msp (hdf_load rows tf_cleared [full] 10 2) = Ok us /\
  good_sections_of msp (hdf_load rows tf_cleared [full] 10 100) = Ok us' /\
  us' = [mkTF (Some 0) (Some 30) true false false; mkTF (Some 1000) (Some 1010) true false true] /\
  us = [mkTF (Some 0) (Some 20) true false false; mkTF (Some 40) (Some 1010) true false true].
Proof.
  exists [(0, true); (10, true); (20, false); (30, true); (40, false); (1000, true); (1010, true)], 20.
  eexists _, _. split; [cbn; lia|]. split; [vm_compute; reflexivity|]. split; [vm_compute; reflexivity|].
  split; reflexivity.
Qed.

Lemma nan_look_raises : exists (rows : list (sample bool)) msp,
  increasing rows /\ good_sections_of msp (hdf_load rows tf_cleared [full] 1 2) = Err IndexError.
Proof.
  exists [(0, true); (10, true); (20, true); (30, false); (40, true)], 20. split; [cbn; lia|]. vm_compute. reflexivity.
Qed.

Lemma flag_leaks : exists (rows : list (sample bool)) msp s1 s2 u1,
  increasing rows /\ nan_free rows /\ sections_in_order [s1; s2] /\
  good_sections_of msp (hdf_load rows tf_cleared [s1; s2] 10 100) = Ok [u1; mkTF (Some 500) (Some 1010) true false true] /\
  good_sections_of msp (hdf_load rows tf_cleared [s2] 10 100) = Ok [mkTF (Some 1000) (Some 1010) true false true].
Proof.
  exists [(0, true); (10, true); (20, true); (30, true); (1000, true); (1010, true)], 20.
  exists (mkTF (Some 0) (Some 25) true false false), (mkTF (Some 500) (Some 2000) true false false). eexists.
  split; [cbn; lia|]. split; [repeat constructor|]. split; [|split; vm_compute; reflexivity].
  intros j k a b i i' Hjk Ha Hb (_ & _ & H1) (_ & H2 & _).
  destruct j as [|[|j]]; simpl in Ha; [| |destruct j; discriminate]; injection Ha as <-;
  (destruct k as [|[|k]]; simpl in Hb; [lia| |destruct k; discriminate]); injection Hb as <-; try lia.
  specialize (H1 _ eq_refl). specialize (H2 _ eq_refl). lia.
Qed.

Lemma combined_not_repeatable : exists (rows : list (sample bool)) msp data us data',
  increasing rows /\ nan_free rows /\ gs_process msp (hdf_load rows tf_cleared [full] 10 2) = Ok data /\
  gs_combined msp data = Ok (us, data') /\ gs_combined msp data' = Err IndexError.
Proof.
  exists [(0, true); (10, true); (20, true); (30, true); (40, true)], 20. eexists _, _, _.
  split; [cbn; lia|]. split; [repeat constructor|]. split; [vm_compute; reflexivity|].
  split; vm_compute; reflexivity.
Qed.

Lemma csv_chunks_split : exists (rows : list (sample bool)) msp,
  increasing rows /\ nan_free rows /\
  good_sections_of msp (csv_load rows tf_cleared [full] 10 100) = Ok [mkTF (Some 0) (Some 30) true false true] /\
  good_sections_of msp (csv_load rows tf_cleared [full] 10 2) =
    Ok [mkTF (Some 0) (Some 10) true false false; mkTF (Some 20) (Some 30) true false true].
Proof.
  exists [(0, true); (10, true); (20, true); (30, true)], 20. split; [cbn; lia|]. split; [repeat constructor|].
  split; vm_compute; reflexivity.
Qed.
