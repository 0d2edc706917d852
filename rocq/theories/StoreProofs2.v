(** Proofs about whole loads, look-ahead, concatenation and the CSV store. *)
From Coq Require Import Sorting.Sorted.
From Verif Require Import Base TimeFrameModel TimeFrameSpec TimeFrameProofs StoreModel StoreSpec StoreProofs.
Open Scope Z_scope.

(** ** Half-open requests *)

Lemma isect_incl_half_open a b : half_open a -> half_open b -> isect_incl a b = false.
Proof.
  unfold half_open, isect_incl. intros -> ->.
  destruct (oeqb (isect_end a b) (tf_end b)), (oeqb (isect_end a b) (tf_end a)); reflexivity.
Qed.

Lemma isect_half_open a b c : half_open a -> half_open b -> intersection a b = Ok c -> half_open c.
Proof.
  intros Ha Hb H. unfold half_open.
  destruct (intersection_cases a b) as [(_ & E)|[(_ & _ & E)|(_ & _ & E)]]; rewrite E in H; injection H as <-;
    simpl; try reflexivity; apply isect_incl_half_open; assumption.
Qed.

Lemma inTFc_half_open t i : half_open t -> (inTFc t i <-> inTF t i).
Proof.
  unfold half_open, inTFc, inTF. intros H. rewrite H. split; intros (H1 & H2 & H3); repeat split; auto.
  intros e He. destruct (H3 e He) as [|[? _]]; [assumption|discriminate].
Qed.

Lemma is_filter_ext {A} (P Q : A -> Prop) l m : (forall x, P x <-> Q x) -> is_filter P l m -> is_filter Q l m.
Proof.
  intros H F. induction F as [|x l m Hx _ IH|x l m Hx _ IH]; constructor; try exact IH.
  - apply H; exact Hx.
  - intros HQ. apply Hx. apply H. exact HQ.
Qed.

Lemma visible_period {A} (rows : list (sample A)) window section w m : half_open window -> half_open section ->
  intersection window section = Ok w -> visible rows window section m -> rows_of_period w rows m.
Proof.
  intros H1 H2 Hw. apply is_filter_ext. intros r. 
  destruct (intersection_spec window section) as (w' & Hw' & Hi & _). rewrite Hw in Hw'. injection Hw' as <-.
  rewrite inTFc_half_open by (apply (isect_half_open window section); assumption). symmetry. apply Hi.
Qed.

Lemma is_filter_none {A} (P : A -> Prop) l m : (forall x, ~ P x) -> is_filter P l m -> m = [].
Proof. intros H F. induction F; [reflexivity|exfalso; eapply H; eassumption|assumption]. Qed.

Lemma is_filter_every {A} (P : A -> Prop) l m : (forall x, P x) -> is_filter P l m -> m = l.
Proof. intros H F. induction F; [reflexivity|f_equal; assumption|exfalso; auto]. Qed.

Lemma is_filter_in {A} (P : A -> Prop) l m x : is_filter P l m -> (In x m <-> In x l /\ P x).
Proof.
  intros F. induction F as [|y l m Hy F IH|y l m Hy F IH]; simpl; [tauto| |].
  - rewrite IH. split; [intros [->|[? ?]]; auto|intros [[->|?] ?]; auto].
  - rewrite IH. split; [intros [? ?]; auto|intros [[->|?] ?]; [contradiction|auto]].
Qed.

Lemma is_filter_exists {A} (P : A -> Prop) l : (forall x, P x \/ ~ P x) -> exists m, is_filter P l m.
Proof.
  intros H. induction l as [|x l [m Hm]]; [exists []; constructor|].
  destruct (H x); [exists (x :: m)|exists m]; constructor; assumption.
Qed.

Lemma is_filter_unique {A} (P : A -> Prop) l m m' : is_filter P l m -> is_filter P l m' -> m = m'.
Proof.
  intros F. revert m'. induction F as [|y l m Hy F IH|y l m Hy F IH]; intros m' F'.
  - inversion F'; reflexivity.
  - inversion F'; subst; [f_equal; auto|contradiction].
  - inversion F'; subst; [contradiction|auto].
Qed.

Lemma is_filter_sorted {A} (P : sample A -> Prop) l m : is_filter P l m -> StronglySorted slt l -> StronglySorted slt m.
Proof.
  intros F. induction F as [|y l m Hy F IH|y l m Hy F IH]; intros Hs; [constructor| |]; inversion Hs as [|? ? H1 H2]; subst.
  - constructor; [auto|]. rewrite Forall_forall in *. intros z Hz. apply H2. apply (is_filter_in P l m z F). exact Hz.
  - auto.
Qed.

Lemma section_served_ok {A} (rows : list (sample A)) window section m n c :
  increasing rows -> (1 <= c)%nat -> half_open window -> half_open section ->
  visible rows window section m -> servable rows window c section m ->
  exists cs, hdf_load_section rows window section n c = (cs, None) /\ section_served c m cs.
Proof.
  intros Hinc Hc Hw Hs Hv [Hone Hunb].
  destruct (intersection_spec window section) as (w & Hiw & Hi & Hem & _).
  destruct (tf_empty w) eqn:E.
  - unfold hdf_load_section. rewrite Hiw, E. eexists. split; [reflexivity|].
    assert (m = []).
    { eapply is_filter_none; [|exact Hv]. cbv beta. intros x. apply Hem. reflexivity. }
    subst m. split; [intros _; eexists; reflexivity|congruence].
  - pose proof (visible_period _ _ _ _ _ Hw Hs Hiw Hv) as Hp.
    destruct (tf_start w) as [s|] eqn:Es; [|destruct (tf_end w) as [e|] eqn:Ee].
    1,2: destruct (section_bounded rows window section w m n c Hinc Hc Hiw E) as (B0 & B1 & B2);
         [first [left; congruence|right; congruence]|exact Hp|].
    1,2: destruct m as [|x [|y m]].
    1,4: eexists; split; [apply B0; reflexivity|]; split; [intros _; eexists; reflexivity|congruence].
    1,3: simpl in Hone; congruence.
    1,2: destruct B2 as (cs & Hcs & D & _); [simpl; lia|]; exists cs; split; [exact Hcs|];
         split; [discriminate|intros _; exact D].
    assert (Hall : m = rows).
    { apply rows_of_period_filter in Hp. rewrite Hp. apply filter_all. rewrite Forall_forall. intros r _.
      apply inTFcb_spec. unfold inTFc. rewrite Es, Ee. repeat split; [exact E|discriminate|discriminate]. }
    subst m.
    destruct (section_unbounded rows window section w n c Hinc Hc Hiw E Es Ee) as (U0 & U1 & _).
    destruct rows as [|x [|y rows]].
    + eexists. split; [apply U0; simpl; lia|]. split; [intros _; eexists; reflexivity|congruence].
    + simpl in Hone. congruence.
    + destruct U1 as (cs & Hcs & D & _).
      * simpl. lia.
      * destruct Hunb as [H|H]; [|discriminate|exact H].
        destruct (intersection_cases window section) as [(Em & E')|[(Em & _ & E')|(Em & _ & E')]];
          rewrite E' in Hiw; injection Hiw as <-; try discriminate.
        apply orb_false_iff in Em. destruct Em as [Em1 Em2].
        unfold tf_start, tf_end in Es, Ee. simpl in Es, Ee.
        unfold isect_start in Es. unfold isect_end in Ee.
        unfold unbounded_request.
        destruct (tf_start section), (tf_start window), (tf_end section), (tf_end window); try discriminate.
        repeat split; assumption.
      * exists cs. split; [exact Hcs|]. split; [discriminate|intros _; exact D].
Qed.

Lemma load_served {A} (rows : list (sample A)) window n c sections :
  increasing rows -> (1 <= c)%nat -> half_open window -> Forall half_open sections ->
  forall ms, Forall2 (visible rows window) sections ms -> Forall2 (servable rows window c) sections ms ->
  exists css, hdf_load rows window sections n c = (concat css, None) /\ Forall2 (section_served c) ms css.
Proof.
  intros Hinc Hc Hw Hs. induction Hs as [|s sections Hh Hs IH]; intros ms Hv Hsv.
  - inversion Hv; subst. exists []. split; [reflexivity|constructor].
  - inversion Hv as [|? m ? ms' Hm Hms]; subst. inversion Hsv as [|? ? ? ? Hm2 Hms2]; subst.
    destruct (IH ms' Hms Hms2) as (css & Hcss & HF).
    destruct (section_served_ok rows window s m n c Hinc Hc Hw Hh Hm Hm2) as (cs & Hcs & HS).
    exists (cs :: css). split; [|constructor; assumption].
    simpl. rewrite Hcs, Hcss. reflexivity.
Qed.

(** ** Look-ahead *)

Lemma skipn_add {A} a b (l : list A) : skipn a (skipn b l) = skipn (b + a) l.
Proof. revert l. induction b as [|b IH]; intros l; [reflexivity|]. destruct l; simpl; [apply skipn_nil|apply IH]. Qed.

Lemma select_look {A} (rows : list (sample A)) st ce n c_t data : (st <= ce)%nat -> data = select rows st ce -> data <> [] ->
  look_ahead_right rows n (mkChunk data (look_ahead_rows rows data n ce) c_t).
Proof.
  intros Hle -> Hne. exists (firstn st rows), (skipn ce rows). split.
  - simpl. unfold select. rewrite <- (firstn_skipn st rows) at 1. f_equal.
    rewrite <- (firstn_skipn (ce - st) (skipn st rows)) at 1. f_equal.
    rewrite skipn_add. f_equal. lia.
  - cbn [c_look]. unfold look_ahead_rows. destruct n as [|n]; [reflexivity|].
    cbn [Nat.ltb Nat.leb Nat.eqb].
    destruct (select rows st ce) as [|x d] eqn:E; [congruence|].
    f_equal. unfold select. f_equal. lia.
Qed.

Lemma hdf_chunks_look {A} (rows : list (sample A)) w n c nc e : forall starts k,
  Forall (fun st => (st <= e)%nat) starts ->
  Forall (fun ch => c_rows ch <> [] -> look_ahead_right rows n ch) (fst (hdf_chunks rows w n c nc e k starts)).
Proof.
  induction starts as [|st starts IH]; intros k H; cbn [hdf_chunks]; [constructor|].
  inversion H as [|? ? H1 H2]; subst.
  match goal with |- context[timeframe_for_chunk ?a ?b ?d ?i] => destruct (timeframe_for_chunk a b d i) end; [|constructor].
  unfold gen_cons. cbn [fst]. constructor; [|apply IH; exact H2].
  intros Hne. apply select_look with (st := st); [|reflexivity|exact Hne].
  destruct (Nat.ltb_spec e (st + c)); lia.
Qed.

Lemma py_range_le s e c : (1 <= c)%nat -> Forall (fun st => (st <= e)%nat) (py_range s e c).
Proof.
  intros Hc. unfold py_range. rewrite Forall_forall. intros x Hx. apply in_map_iff in Hx.
  destruct Hx as (k & <- & Hk). apply in_seq in Hk. destruct Hk as [_ Hk]. simpl in Hk.
  unfold ceil_div in Hk.
  assert (S k * c <= e - s + (c - 1))%nat.
  { etransitivity; [apply Nat.mul_le_mono_r; exact Hk|]. rewrite Nat.mul_comm. apply Nat.mul_div_le. lia. }
  simpl in H. lia.
Qed.

Lemma load_look {A} (rows : list (sample A)) window sections n c ch :
  In ch (fst (hdf_load rows window sections n c)) -> c_rows ch <> [] -> look_ahead_right rows n ch.
Proof.
  assert (Hsec : forall s, Forall (fun ch => c_rows ch <> [] -> look_ahead_right rows n ch) (fst (hdf_load_section rows window s n c))).
  { intros s. unfold hdf_load_section. destruct (intersection window s) as [w|]; [|constructor].
    destruct (tf_empty w); [constructor; [simpl; congruence|constructor]|].
    assert (HR : forall a b, Forall (fun ch => c_rows ch <> [] -> look_ahead_right rows n ch) (fst (hdf_range rows w n c a b))).
    { intros a b. unfold hdf_range. destruct (Nat.eqb_spec c 0); [constructor|].
      apply hdf_chunks_look. apply py_range_le. lia. }
    destruct (query_terms w) as [[q|]|]; [|destruct (Nat.leb (length rows) 1); [constructor; [simpl; congruence|constructor]|apply HR]|constructor].
    destruct (coords_from 0 (Some q) rows) as [|c0 cs]; [constructor; [simpl; congruence|constructor]|].
    destruct (last_opt (c0 :: cs)); [apply HR|constructor]. }
  revert ch. rewrite <- Forall_forall. induction sections as [|s sections IH]; [constructor|].
  simpl. specialize (Hsec s). destruct (hdf_load_section rows window s n c) as [l [e|]]; simpl in *; [exact Hsec|].
  rewrite Forall_app. split; assumption.
Qed.

(** ** power_series_all_data *)

Definition end_after {A} (p : option Z) (l : list (list (sample A))) : option Z :=
  fold_left (fun _ c => match last_opt c with Some x => Some (fst x) | None => None end) l p.

Lemma drop_overlaps_app {A} (l1 l2 : list (list (sample A))) : forall p,
  drop_overlaps p (l1 ++ l2) = drop_overlaps p l1 ++ drop_overlaps (end_after p l1) l2.
Proof. induction l1 as [|c l1 IH]; intros p; simpl; [reflexivity|]. rewrite IH. reflexivity. Qed.

Lemma end_after_app {A} (l1 l2 : list (list (sample A))) p :
  end_after p (l1 ++ l2) = end_after (end_after p l1) l2.
Proof. unfold end_after. apply fold_left_app. Qed.

(** Within one section the shared rows are dropped and nothing else. *)
Lemma drop_shared {A} (cs : list (chunk A)) : forall y p, 
  match cs with [] => True | ch :: _ => exists d, c_rows ch = y :: d end ->
  share_one_row cs -> Forall (fun ch => c_rows ch <> []) cs -> p = Some (fst y) ->
  concat (drop_overlaps p (map c_rows cs)) = concat (map (fun c' => tl (c_rows c')) cs) /\
  (forall z, last_opt (y :: concat (map (fun c' => tl (c_rows c')) cs)) = Some z ->
     end_after p (map c_rows cs) = Some (fst z)).
Proof.
  induction cs as [|ch cs IH]; intros y p Hf Hsh Hne ->.
  - split; [reflexivity|]. simpl. intros z [= <-]. reflexivity.
  - destruct Hf as [d Hd]. inversion Hne as [|? ? N1 N2]; subst.
    assert (Hl : exists l, last_opt (c_rows ch) = Some l) by (rewrite Hd; apply last_opt_some).
    destruct Hl as [l Hl].
    destruct (IH l (Some (fst l))) as [I1 I2].
    + destruct cs as [|b cs]; [exact I|]. destruct Hsh as [(x & pre & post & Ha & Hb) _].
      rewrite Ha, last_opt_snoc in Hl. injection Hl as <-. exists post. exact Hb.
    + destruct cs as [|b cs]; [exact I|]. exact (proj2 Hsh).
    + exact N2.
    + reflexivity.
    + split.
      * cbn [map drop_overlaps]. rewrite Hl. cbn [concat]. rewrite I1, Hd. cbv iota beta.
        rewrite Z.leb_refl. reflexivity.
      * intros z Hz. cbn [map end_after fold_left]. unfold end_after in I2. 
        unfold end_after. simpl fold_left. rewrite Hl. apply I2.
        cbn [map concat] in Hz. rewrite Hd in Hz, Hl. simpl tl in Hz.
        rewrite app_comm_cons in Hz.
        destruct (concat (map (fun c' => tl (c_rows c')) cs)) as [|u us] eqn:Eu.
        -- rewrite app_nil_r in Hz. simpl. congruence.
        -- assert (Hne2 : u :: us <> []) by discriminate. destruct (exists_last Hne2) as (q & t & Eq). rewrite Eq in *.
           rewrite app_assoc, last_opt_snoc in Hz. rewrite app_comm_cons, last_opt_snoc. exact Hz.
Qed.

Lemma drop_section {A} (cs : list (chunk A)) m c p : delivers cs m c -> m <> [] ->
  (forall x q, In x m -> p = Some q -> q < fst x) ->
  filter nonempty (map c_rows cs) = map c_rows cs /\
  concat (drop_overlaps p (map c_rows cs)) = m /\
  (exists z, last_opt m = Some z /\ end_after p (map c_rows cs) = Some (fst z)).
Proof.
  intros (Hu & Hsh & Hsz) Hm Hp.
  assert (Hne : Forall (fun ch => c_rows ch <> []) cs).
  { eapply Forall_impl; [|exact Hsz]. simpl. intros ch Hch E. rewrite E in Hch. simpl in Hch. lia. }
  split.
  { apply filter_all. rewrite Forall_map. eapply Forall_impl; [|exact Hne]. simpl. intros ch Hch.
    destruct (c_rows ch); [congruence|reflexivity]. }
  destruct cs as [|ch cs]; [simpl in Hu; congruence|].
  inversion Hne as [|? ? N1 N2]; subst. simpl unshared in *.
  destruct (c_rows ch) as [|y d] eqn:Hd; [congruence|].
  destruct (last_opt_some y d) as [l Hl].
  destruct (drop_shared cs l (Some (fst l))) as [I1 I2].
  - destruct cs as [|b cs]; [exact I|]. destruct Hsh as [(x & pre & post & Ha & Hb) _].
    rewrite Hd in Ha. rewrite Ha, last_opt_snoc in Hl. injection Hl as <-. exists post. exact Hb.
  - destruct cs as [|b cs]; [exact I|]. exact (proj2 Hsh).
  - exact N2.
  - reflexivity.
  - split.
    + cbn [map drop_overlaps]. rewrite Hd, Hl. cbn [concat]. rewrite I1.
      destruct p as [q|]; [|reflexivity].
      assert (q < fst y) by (apply (Hp y q); [left; reflexivity|reflexivity]).
      destruct (Z.leb_spec (fst y) q); [lia|reflexivity].
    + destruct (last_opt_some y (d ++ concat (map (fun c' => tl (c_rows c')) cs))) as [z Hz].
      exists z. split; [exact Hz|]. unfold end_after in *. simpl fold_left. rewrite Hd, Hl. apply I2.
      rewrite app_comm_cons in Hz.
      destruct (concat (map (fun c' => tl (c_rows c')) cs)) as [|u us] eqn:Eu.
      * rewrite app_nil_r in Hz. simpl. congruence.
      * assert (Hne2 : u :: us <> []) by discriminate. destruct (exists_last Hne2) as (q & t & Eq). rewrite Eq in *.
        rewrite app_assoc, last_opt_snoc in Hz. rewrite app_comm_cons, last_opt_snoc. exact Hz.
Qed.

(** Rows of later sections come after rows of earlier ones. *)
Fixpoint blocks_in_order {A} (ms : list (list (sample A))) : Prop :=
  match ms with
  | [] => True
  | m :: r => (forall x y, In x m -> In y (concat r) -> fst x < fst y) /\ blocks_in_order r
  end.

Lemma drop_sections {A} c (ms : list (list (sample A))) : forall css p,
  Forall2 (section_served c) ms css -> blocks_in_order ms ->
  (forall x q, In x (concat ms) -> p = Some q -> q < fst x) ->
  concat (drop_overlaps p (filter nonempty (map c_rows (concat css)))) = concat ms /\
  (filter nonempty (map c_rows (concat css)) = [] <-> concat ms = []).
Proof.
  induction ms as [|m ms IH]; intros css p HF Hord Hp.
  - inversion HF; subst. simpl. split; [reflexivity|split; reflexivity].
  - inversion HF as [|? cs ? css' HS HF']; subst. destruct Hord as [Ho1 Ho2].
    cbn [concat]. rewrite map_app, filter_app.
    destruct HS as [S0 S1]. destruct m as [|x m'] eqn:Em.
    + destruct (S0 eq_refl) as [t ->]. simpl. apply IH; [exact HF'|exact Ho2|exact Hp].
    + rewrite <- Em in *. assert (Hne : m <> []) by (rewrite Em; discriminate).
      destruct (drop_section cs m c p (S1 Hne) Hne) as (D1 & D2 & z & D3 & D4).
      { intros u q Hu Hq. apply (Hp u q); [|exact Hq]. simpl. rewrite in_app_iff. left. exact Hu. }
      rewrite D1, drop_overlaps_app, concat_app, D2, D4.
      destruct (IH css' (Some (fst z)) HF' Ho2) as [I1 I2].
      { intros u q Hu [= <-]. apply Ho1; [|exact Hu].
        destruct (exists_last Hne) as (m0 & z' & E). rewrite E in D3 |- *. rewrite last_opt_snoc in D3.
        injection D3 as ->. rewrite in_app_iff. right. left. reflexivity. }
      rewrite I1. split; [reflexivity|].
      split; intros H.
      * exfalso. apply app_eq_nil in H. destruct H as [H _].
        destruct (S1 Hne) as (Hu & _ & _). destruct cs; [simpl in Hu; congruence|discriminate].
      * exfalso. apply app_eq_nil in H. destruct H; congruence.
Qed.

Lemma sections_blocks {A} (rows : list (sample A)) window sections : sections_in_order sections ->
  forall ms, Forall2 (visible rows window) sections ms -> blocks_in_order ms.
Proof.
  intros Hord ms HF. revert Hord. induction HF as [|s m sections ms Hm HF IH]; intros Hord; [exact I|].
  split.
  - intros x y Hx Hy. apply in_concat in Hy. destruct Hy as (m' & Hm' & Hy).
    apply In_nth_error in Hm'. destruct Hm' as [k Hk].
    assert (Hs' : exists s', nth_error sections k = Some s' /\ visible rows window s' m').
    { clear -HF Hk. revert k Hk. induction HF as [|a b l l' Hab HF IH]; intros k Hk; [destruct k; discriminate|].
      destruct k; simpl in Hk; [injection Hk as <-; exists a; split; [reflexivity|exact Hab]|apply IH; exact Hk]. }
    destruct Hs' as (s' & Hs' & Hv').
    apply (is_filter_in _ _ _ _ Hm) in Hx. apply (is_filter_in _ _ _ _ Hv') in Hy.
    destruct Hx as (_ & _ & Hx). destruct Hy as (_ & _ & Hy).
    apply (Hord 0%nat (S k) s s'); simpl; auto; lia.
  - apply IH. intros j k a b i i' Hjk Ha Hb. apply (Hord (S j) (S k) a b); simpl; auto; lia.
Qed.

Lemma filter_concat_exact {A} (rows : list (sample A)) window sections : increasing rows -> sections_in_order sections ->
  forall ms, Forall2 (visible rows window) sections ms ->
  is_filter (fun r => inTF window (fst r) /\ covers sections (fst r)) rows (concat ms).
Proof.
  intros Hinc Hord ms HF.
  assert (Hdec : forall r : sample A, (inTF window (fst r) /\ covers sections (fst r)) \/ ~ (inTF window (fst r) /\ covers sections (fst r))).
  { intros r. rewrite <- covers_existsb, <- inTFb_spec.
    destruct (inTFb window (fst r)), (existsb (fun t => inTFb t (fst r)) sections); intuition congruence. }
  destruct (is_filter_exists _ rows Hdec) as [m Hm].
  replace (concat ms) with m; [exact Hm|].
  apply increasing_sorted in Hinc.
  (* two strictly sorted lists with the same elements are equal *)
  assert (Hsame : forall l1 l2 : list (sample A), StronglySorted slt l1 -> StronglySorted slt l2 ->
     (forall x, In x l1 <-> In x l2) -> l1 = l2).
  { induction l1 as [|x l1 IH]; intros l2 S1 S2 Heq.
    - destruct l2 as [|y l2]; [reflexivity|]. exfalso. apply (Heq y). left. reflexivity.
    - destruct l2 as [|y l2]; [exfalso; apply (Heq x); left; reflexivity|].
      inversion S1 as [|? ? T1 F1]; subst. inversion S2 as [|? ? T2 F2]; subst.
      rewrite Forall_forall in F1, F2.
      assert (x = y).
      { assert (Hx : In x (y :: l2)) by (apply Heq; left; reflexivity).
        assert (Hy : In y (x :: l1)) by (apply Heq; left; reflexivity).
        destruct Hx as [->|Hx]; [reflexivity|]. destruct Hy as [->|Hy]; [reflexivity|].
        specialize (F1 y Hy). specialize (F2 x Hx). unfold slt in *. lia. }
      subst y. f_equal. apply IH; [assumption|assumption|].
      intros z. split; intros Hz.
      + assert (In z (x :: l2)) as [->|]; [apply Heq; right; exact Hz| |assumption].
        specialize (F1 z Hz). unfold slt in F1. lia.
      + assert (In z (x :: l1)) as [->|]; [apply Heq; right; exact Hz| |assumption].
        specialize (F2 z Hz). unfold slt in F2. lia. }
  apply Hsame.
  - exact (is_filter_sorted _ _ _ Hm Hinc).
  - pose proof (sections_blocks rows window sections Hord ms HF) as HB.
    clear Hm Hord. induction HF as [|s m' sections ms Hm' HF IH]; [constructor|].
    simpl. apply sorted_app. destruct HB as [HB1 HB2]. split; [exact (is_filter_sorted _ _ _ Hm' Hinc)|].
    split; [apply IH; [|exact HB2]|exact HB1].
    intros r. rewrite <- covers_existsb, <- inTFb_spec.
    destruct (inTFb window (fst r)), (existsb (fun t => inTFb t (fst r)) sections); intuition congruence.
  - intros r. rewrite (is_filter_in _ _ _ r Hm). clear -HF.
    induction HF as [|s m' sections ms Hm' HF IH]; simpl.
    + split; [intros (_ & _ & t & [] & _)|intros []].
    + rewrite in_app_iff, <- IH, (is_filter_in _ _ _ r Hm'), covers_cons. tauto.
Qed.

Lemma all_data_exact {A} (rows : list (sample A)) window sections n c ms :
  increasing rows -> (1 <= c)%nat -> half_open window -> Forall half_open sections ->
  sections_in_order sections ->
  Forall2 (visible rows window) sections ms -> Forall2 (servable rows window c) sections ms ->
  exists m, is_filter (fun r => inTF window (fst r) /\ covers sections (fst r)) rows m /\
    power_series_all_data (hdf_load rows window sections n c) = Ok (match m with [] => None | _ => Some m end).
Proof.
  intros Hinc Hc Hw Hs Hord HV HS.
  destruct (load_served rows window n c sections Hinc Hc Hw Hs ms HV HS) as (css & Hl & HF).
  exists (concat ms). split; [apply filter_concat_exact; assumption|].
  unfold power_series_all_data. rewrite Hl. cbn [fst snd].
  destruct (drop_sections c ms css None HF) as [D1 D2]; [exact (sections_blocks rows window sections Hord ms HV)|discriminate|].
  destruct (filter nonempty (map c_rows (concat css))) as [|ch chs].
  - destruct D2 as [D2 _]. rewrite (D2 eq_refl). reflexivity.
  - rewrite D1. destruct (concat ms) eqn:E; [|reflexivity].
    destruct D2 as [_ D2]. specialize (D2 eq_refl). discriminate.
Qed.

(** ** The CSV store *)

Lemma csv_mask_inTFb w i : csv_mask w i = inTFb w i.
Proof.
  unfold csv_mask, inTFb. destruct (tf_empty w), (tf_start w), (tf_end w); simpl;
    rewrite ?andb_true_r, ?andb_false_r; reflexivity.
Qed.

Lemma inTFb_convex t a b c : a <= b -> b <= c -> inTFb t a = true -> inTFb t c = true -> inTFb t b = true.
Proof.
  intros H1 H2. unfold inTFb. destruct (tf_empty t); simpl; [discriminate|].
  destruct (tf_start t), (tf_end t); rewrite ?andb_true_iff, ?Z.leb_le, ?Z.ltb_lt; simpl; lia.
Qed.

Lemma convex_run {A} (f : Z -> bool) (rows : list (sample A)) :
  (forall a b c, a <= b -> b <= c -> f a = true -> f c = true -> f b = true) ->
  StronglySorted slt rows ->
  exists pre m post, rows = pre ++ m ++ post /\
    Forall (fun r => f (fst r) = false) pre /\
    Forall (fun r => f (fst r) = true) m /\
    Forall (fun r => f (fst r) = false) post.
Proof.
  intros Hconv. induction 1 as [|x rows Hs IH Hf].
  - exists [], [], []. repeat split; constructor.
  - destruct IH as (pre & m & post & -> & F1 & F2 & F3).
    destruct (f (fst x)) eqn:E.
    + destruct m as [|y m].
      * exists [], [x], (pre ++ post). split; [reflexivity|]. split; [constructor|].
        split; [repeat constructor; exact E|]. rewrite Forall_app. split; assumption.
      * destruct pre as [|z pre].
        -- exists [], (x :: y :: m), post. split; [reflexivity|]. split; [constructor|].
           split; [constructor; assumption|assumption].
        -- exfalso. inversion F1 as [|? ? Hz _]; subst. inversion F2 as [|? ? Hy _]; subst.
           rewrite Forall_forall in Hf.
           assert (Hxz : fst x < fst z) by (apply Hf; left; reflexivity).
           simpl in Hs. inversion Hs as [|? ? _ Hfz]; subst. rewrite Forall_forall in Hfz.
           assert (Hzy : fst z < fst y) by (apply Hfz; rewrite in_app_iff; right; left; reflexivity).
           rewrite (Hconv (fst x) (fst z) (fst y)) in Hz; [discriminate|lia|lia|exact E|exact Hy].
    + exists (x :: pre), m, post. split; [reflexivity|]. split; [constructor; assumption|]. split; assumption.
Qed.

Lemma last_pos_app {A} (f : A -> bool) l1 l2 : forall i acc,
  last_pos f i (l1 ++ l2) acc = last_pos f (i + length l1) l2 (last_pos f i l1 acc).
Proof.
  induction l1 as [|x l1 IH]; intros i acc; simpl; [rewrite Nat.add_0_r; reflexivity|].
  rewrite IH. f_equal. lia.
Qed.

Lemma last_pos_none {A} (f : A -> bool) l : Forall (fun x => f x = false) l -> forall i acc, last_pos f i l acc = acc.
Proof. induction 1 as [|x l H HF IH]; intros i acc; simpl; [reflexivity|]. rewrite H. apply IH. Qed.

Lemma last_pos_all {A} (f : A -> bool) l : Forall (fun x => f x = true) l -> l <> [] -> forall i acc,
  last_pos f i l acc = (i + length l - 1)%nat.
Proof.
  intros HF Hne. destruct (exists_last Hne) as (q & z & ->). intros i acc.
  rewrite last_pos_app. simpl. apply Forall_app in HF. destruct HF as [_ HF].
  inversion HF as [|? ? Hz _]; subst. rewrite Hz, app_length. simpl. lia.
Qed.

Definition frame_of_rows {A} (ch : chunk A) : Prop :=
  exists s e, bounded (c_tf ch) s e /\ first_time (c_rows ch) s /\ last_time (c_rows ch) e.

(** What one file block contributes. *)
Inductive block_out {A} (all : list (sample A)) (n c : nat) (m : list (sample A)) (next : gen (chunk A))
  : gen (chunk A) -> Prop :=
  | bo_none : m = [] -> block_out all n c m next next
  | bo_one : length m = 1%nat -> block_out all n c m next ([], Some ValueError)
  | bo_more ch : (2 <= length m <= c)%nat -> c_rows ch = m -> look_ahead_right all n ch -> frame_of_rows ch ->
      block_out all n c m next (gen_cons ch next).

(** The result of one file block followed by [next]. *)
Definition csv_out {A} (all b : list (sample A)) (w : tf) (n c idx : nat) (next : gen (chunk A)) : gen (chunk A) :=
   (let sub := filter (fun r => csv_mask w (fst r)) b in
    match sub, last_opt sub with
          | x :: _, Some y =>
              match mk (Some (fst x)) (Some (fst y)) with
              | Err e => ([], Some e)
              | Ok t =>
                  let pos := last_pos (fun r => csv_mask w (fst r)) 0 b 0 in
                  let from := (idx * c + pos + 1)%nat in
                  let look := if Nat.ltb 0 n then Some (select all from (from + n)) else None in
                  gen_cons (mkChunk sub look t) next
              end
          | _, _ => next
          end).

Lemma csv_chunks_step {A} fuel (all rest : list (sample A)) w n c idx : rest <> [] ->
  csv_chunks (S fuel) all rest w n c idx =
  csv_out all (firstn c rest) w n c idx (csv_chunks fuel all (skipn c rest) w n c (S idx)).
Proof. intros H. destruct rest; [congruence|reflexivity]. Qed.

Lemma csv_block {A} (all b post : list (sample A)) w n c idx next : StronglySorted slt b ->
  (length b <= c)%nat -> forall pre, all = pre ++ b ++ post -> length pre = (idx * c)%nat ->
  block_out all n c (filter (fun r => csv_mask w (fst r)) b) next
   (csv_out all b w n c idx next).
Proof.
  intros Hs Hlen pre Hall Hpre. unfold csv_out.
  destruct (convex_run (csv_mask w) b) as (b1 & m & b2 & Hb & F1 & F2 & F3).
  { intros x y z. rewrite !csv_mask_inTFb. apply inTFb_convex. }
  { exact Hs. }
  assert (Hm : filter (fun r => csv_mask w (fst r)) b = m) by (rewrite Hb; apply filter_run; assumption).
  rewrite Hm. destruct m as [|x m']; [apply bo_none; reflexivity|].
  destruct (last_opt_some x m') as [y Hy]. cbv zeta iota beta. rewrite Hy.
  destruct m' as [|x2 m''].
  { simpl in Hy. injection Hy as <-. rewrite mk_err by lia. apply bo_one. reflexivity. }
  remember (x2 :: m'') as m' eqn:Em'.
  assert (Hm' : m' <> []) by (rewrite Em'; discriminate).
  assert (Hsm : StronglySorted slt (x :: m')).
  { rewrite Hb in Hs. apply sorted_app in Hs. destruct Hs as (_ & Hs & _). apply sorted_app in Hs. tauto. }
  pose proof (last_in_tail x m' y Hy Hsm Hm') as Hxy.
  destruct (mk_bounded (fst x) (fst y) Hxy) as (t & Ht & Hbt & _). rewrite Ht.
  assert (Hl2 : (1 <= length m')%nat) by (rewrite Em'; simpl; lia).
  apply bo_more.
  - split; [simpl; lia|]. rewrite Hb, !app_length in Hlen. lia.
  - reflexivity.
  - exists (pre ++ b1), (b2 ++ post). split.
    + cbn [c_rows]. rewrite Hall, Hb. rewrite <- !app_assoc. reflexivity.
    + cbn [c_look]. destruct n as [|n]; [reflexivity|]. cbn [Nat.ltb Nat.leb Nat.eqb]. f_equal.
      rewrite Hb, last_pos_app, last_pos_app, (last_pos_none _ b1), (last_pos_none _ b2), last_pos_all; try assumption; [|discriminate].
      rewrite <- Hpre.
      replace (length pre + (0 + length b1 + length (x :: m') - 1) + 1)%nat with (length (pre ++ b1 ++ x :: m')) by (rewrite !app_length; cbn [length]; lia).
      rewrite <- (select_after (pre ++ b1 ++ x :: m') (b2 ++ post) (S n)).
      f_equal. rewrite Hall, Hb, <- !app_assoc. reflexivity.
  - exists (fst x), (fst y). split; [exact Hbt|]. split.
    + exists x, m'. split; reflexivity.
    + assert (Hne : x :: m' <> []) by discriminate. destruct (exists_last Hne) as (q & z & E).
      cbn [c_rows]. rewrite E in *. rewrite last_opt_snoc in Hy. injection Hy as ->. exists y, q. split; reflexivity.
Qed.

Lemma csv_chunks_spec {A} (all : list (sample A)) w n c : (1 <= c)%nat -> StronglySorted slt all ->
  forall rest bs, cut c rest bs -> forall pre idx fuel,
  all = pre ++ rest -> (rest <> [] -> length pre = (idx * c)%nat) -> (length rest < fuel)%nat ->
  (Forall (fun b => length (filter (fun r => csv_mask w (fst r)) b) <> 1%nat) bs ->
   exists cs, csv_chunks fuel all rest w n c idx = (cs, None) /\
     concat (map c_rows cs) = filter (fun r => csv_mask w (fst r)) rest /\
     Forall (fun ch => (2 <= length (c_rows ch) <= c)%nat) cs /\ Forall (look_ahead_right all n) cs /\
     Forall frame_of_rows cs) /\
  (Exists (fun b => length (filter (fun r => csv_mask w (fst r)) b) = 1%nat) bs ->
   snd (csv_chunks fuel all rest w n c idx) = Some ValueError).
Proof.
  intros Hc Hsort rest bs Hcut. induction Hcut as [|b Hne Hlen|b rest bs Hlen Hne Hcut IH]; intros pre idx fuel Hall Hpre Hfuel.
  - destruct fuel; [simpl in Hfuel; lia|]. simpl. split; [|intros H; inversion H].
    intros _. exists []. repeat split; constructor.
  - destruct fuel as [|fuel]; [lia|]. destruct b as [|r0 b0] eqn:Eb; [congruence|]. rewrite <- Eb in *.
    assert (Hfb : firstn c b = b) by (apply firstn_all2; exact Hlen).
    assert (Hsb : skipn c b = []) by (apply skipn_all2; exact Hlen).
    assert (Hfuel' : (1 <= fuel)%nat) by (rewrite Eb in Hfuel; simpl in Hfuel; lia).
    assert (Hnext : csv_chunks fuel all (skipn c b) w n c (S idx) = ([], None)) by (rewrite Hsb; destruct fuel; [lia|reflexivity]).
    assert (Hb : StronglySorted slt b) by (rewrite Hall in Hsort; apply sorted_app in Hsort; tauto).
    pose proof (csv_block all b [] w n c idx (csv_chunks fuel all (skipn c b) w n c (S idx)) Hb Hlen pre) as HB.
    rewrite app_nil_r in HB. specialize (HB Hall (Hpre Hne)).
    rewrite csv_chunks_step by exact Hne. rewrite Hfb.
    set (m := filter (fun r => csv_mask w (fst r)) b) in *.
    inversion HB as [Hm E|Hm E|ch Hm Hch Hlk Hfr E]; rewrite ?Hnext.
    + split; [intros _; exists []; rewrite Hm; repeat split; constructor|].
      intros HX. inversion HX as [? ? H|? ? H]; subst; [fold m in H; rewrite Hm in H; discriminate|inversion H].
    + split; [intros HX; exfalso; inversion HX as [|? ? HX1 ?]; subst; exact (HX1 Hm)|reflexivity].
    + split.
      * intros _. eexists. split; [reflexivity|]. simpl. rewrite Hch, app_nil_r.
        split; [reflexivity|]. split; [|split]; (constructor; [|constructor]); [rewrite Hch; exact Hm|exact Hlk|exact Hfr].
      * intros HX. inversion HX as [? ? H|? ? H]; subst; [fold m in H; lia|inversion H].
  - destruct fuel as [|fuel]; [lia|].
    assert (Hfb : firstn c (b ++ rest) = b) by (rewrite <- Hlen, firstn_app, firstn_all, Nat.sub_diag; simpl; apply app_nil_r).
    assert (Hsb : skipn c (b ++ rest) = rest) by (rewrite <- Hlen, skipn_app, skipn_all, Nat.sub_diag; reflexivity).
    assert (Hb : StronglySorted slt b).
    { rewrite Hall in Hsort. apply sorted_app in Hsort. destruct Hsort as (_ & Hsort & _). apply sorted_app in Hsort. tauto. }
    assert (Hbr : b ++ rest <> []) by (destruct b; [simpl in Hlen; lia|discriminate]).
    pose proof (csv_block all b rest w n c idx (csv_chunks fuel all (skipn c (b ++ rest)) w n c (S idx)) Hb (Nat.eq_le_incl _ _ Hlen) pre Hall (Hpre Hbr)) as HB.
    destruct (IH (pre ++ b) (S idx) fuel) as [I1 I2].
    { rewrite Hall, <- app_assoc. reflexivity. }
    { intros _. rewrite app_length, (Hpre Hbr). simpl. lia. }
    { rewrite app_length in Hfuel. lia. }
    rewrite csv_chunks_step by exact Hbr.
    rewrite Hfb, Hsb in *.
    rewrite filter_app.
    set (m := filter (fun r => csv_mask w (fst r)) b) in *.
    inversion HB as [Hm E|Hm E|ch Hm Hch Hlk Hfr E].
    + split.
      * intros HX. inversion HX as [|? ? _ HX']; subst. rewrite Hm. exact (I1 HX').
      * intros HX. inversion HX as [? ? H|? ? H]; subst; [fold m in H; rewrite Hm in H; discriminate|exact (I2 H)].
    + split; [intros HX; exfalso; inversion HX as [|? ? HX1 ?]; subst; exact (HX1 Hm)|reflexivity].
    + split.
      * intros HX. inversion HX as [|? ? _ HX']; subst. destruct (I1 HX') as (cs & Hcs & J1 & J2 & J3 & J4).
        rewrite Hcs. eexists. split; [reflexivity|]. cbn [map concat fst]. rewrite J1, Hch.
        split; [reflexivity|]. split; [|split]; (constructor; [|assumption]); [rewrite Hch; exact Hm|exact Hlk|exact Hfr].
      * intros HX. inversion HX as [? ? H|? ? H]; subst; [fold m in H; lia|]. simpl. exact (I2 H).
Qed.

Lemma cut_exists {A} c (rows : list A) : (1 <= c)%nat -> exists bs, cut c rows bs.
Proof.
  intros Hc. remember (length rows) as k eqn:Hk. revert rows Hk.
  induction k as [k IH] using lt_wf_ind. intros rows Hk.
  destruct (Nat.le_gt_cases (length rows) c) as [H|H].
  - destruct rows as [|r rows]; [exists []; constructor|exists [r :: rows]; constructor; [discriminate|exact H]].
  - destruct (IH (length (skipn c rows))) with (rows := skipn c rows) as [bs Hbs].
    + rewrite skipn_length. lia.
    + reflexivity.
    + exists (firstn c rows :: bs). rewrite <- (firstn_skipn c rows) at 1.
      apply cut_cons; [rewrite firstn_length; lia| |exact Hbs].
      intros E. apply (f_equal (@length A)) in E. rewrite skipn_length in E. simpl in E. lia.
Qed.

Lemma csv_section {A} (rows : list (sample A)) window section m n c bs :
  increasing rows -> (1 <= c)%nat -> visible rows window section m -> cut c rows bs ->
  ((forall b k, In b bs -> visible b window section k -> length k <> 1%nat) ->
   exists cs, csv_load_section rows window section n c = (cs, None) /\ concat (map c_rows cs) = m /\
     Forall (fun ch => (2 <= length (c_rows ch) <= c)%nat) cs /\ Forall (look_ahead_right rows n) cs /\
     Forall frame_of_rows cs) /\
  (forall b k, In b bs -> visible b window section k -> length k = 1%nat ->
   snd (csv_load_section rows window section n c) = Some ValueError).
Proof.
  intros Hinc Hc Hv Hcut. apply increasing_sorted in Hinc.
  destruct (intersection_spec window section) as (w & Hw & Hi & _).
  assert (Hvis : forall (l k : list (sample A)), visible l window section k <-> k = filter (fun r => csv_mask w (fst r)) l).
  { intros l k. apply is_filter_filter. intros x. rewrite csv_mask_inTFb, inTFb_spec. apply Hi. }
  destruct (csv_chunks_spec rows w n c Hc Hinc rows bs Hcut [] 0%nat (S (length rows))) as [C1 C2]; [reflexivity|reflexivity|lia|].
  unfold csv_load_section. rewrite Hw. replace (Nat.eqb c 0) with false by (symmetry; apply Nat.eqb_neq; lia).
  split.
  - intros H. destruct C1 as (cs & Hcs & J1 & J2 & J3).
    + rewrite Forall_forall. intros b Hb. apply (H b); [exact Hb|]. apply Hvis. reflexivity.
    + exists cs. split; [exact Hcs|]. split; [rewrite J1; symmetry; apply Hvis; exact Hv|]. split; assumption.
  - intros b k Hb Hk H1. apply C2. apply Exists_exists. exists b. split; [exact Hb|].
    apply Hvis in Hk. rewrite <- Hk. exact H1.
Qed.

(** ** Row counts and time frames of tables *)

Lemma nrows_exact {A} (rows : list (sample A)) window section m :
  half_open window -> half_open section -> visible rows window section m ->
  hdf_nrows rows window (Some section) = Ok (length m).
Proof.
  intros Hw Hs Hv. unfold hdf_nrows, intersection_opt.
  destruct (intersection_spec window section) as (w & Hiw & Hi & Hem & _). rewrite Hiw. cbn [bind].
  destruct (tf_empty w) eqn:E.
  - assert (m = []) as ->; [|reflexivity].
    eapply is_filter_none; [|exact Hv]. cbv beta. intros x. apply Hem. reflexivity.
  - pose proof (visible_period _ _ _ _ _ Hw Hs Hiw Hv) as Hp. apply rows_of_period_filter in Hp. 
    assert (Hq : exists q, query_terms w = Ok q).
    { destruct (query_terms_cases w E) as [(_ & _ & H)|(q & H & _)]; eexists; exact H. }
    destruct Hq as [q Hq]. rewrite Hq. cbn [bind]. rewrite coords_length, Hp. f_equal. f_equal.
    apply filter_ext. intros r. apply terms_hold_inTFcb; assumption.
Qed.

Lemma get_timeframe_exact {A} (rows : list (sample A)) window : increasing rows -> (2 <= length rows)%nat ->
  exists t s e, hdf_get_timeframe rows window = Ok t /\ first_time rows s /\ last_time rows e /\
    (forall i, inTF t i <-> inTF window i /\ s <= i < e).
Proof.
  intros Hinc Hlen. apply increasing_sorted in Hinc.
  destruct rows as [|x r1]; [simpl in Hlen; lia|].
  destruct (last_opt_some x r1) as [z Hz].
  assert (Hr1 : r1 <> []) by (destruct r1; [simpl in Hlen; lia|discriminate]).
  pose proof (last_in_tail x r1 z Hz Hinc Hr1) as Hxz.
  destruct (mk_bounded (fst x) (fst z) Hxz) as (t & Ht & Hb & _).
  destruct (intersection_spec window t) as (w & Hw & Hi & _).
  exists w, (fst x), (fst z). unfold hdf_get_timeframe. rewrite Hz, Ht. cbn [bind]. split; [exact Hw|].
  split; [exists x, r1; split; reflexivity|]. split.
  - assert (Hne : x :: r1 <> []) by discriminate. destruct (exists_last Hne) as (q & z' & E).
    rewrite E in *. rewrite last_opt_snoc in Hz. injection Hz as ->. exists z, q. split; reflexivity.
  - intros i. rewrite Hi, (inTF_bounded t (fst x) (fst z) i Hb). reflexivity.
Qed.

(** ** Counterexamples *)

Lemma single_row_lost : exists (rows : list (sample Z)) window section m,
  increasing rows /\ half_open window /\ half_open section /\ visible rows window section m /\ m <> [] /\
  hdf_load rows window [section] 0 10 = ([], None).
Proof.
  exists [(0, 7); (10, 8); (20, 9)], tf_cleared, (mkTF (Some 5) (Some 15) true false false), [(10, 8)].
  split; [simpl; lia|]. split; [reflexivity|]. split; [reflexivity|]. split.
  - apply (is_filter_filter _ (fun r => inTFb (mkTF (Some 5) (Some 15) true false false) (fst r))); [|reflexivity].
    intros x. rewrite inTFb_spec. split; [|tauto]. intros H. split; [|exact H].
    split; [reflexivity|]. split; discriminate.
  - split; [discriminate|reflexivity].
Qed.

Lemma unbounded_load_raises : exists (rows : list (sample Z)) cs,
  increasing rows /\ hdf_load rows tf_cleared (default_sections None) 0 2 = (cs, Some ValueError) /\ unshared cs = rows.
Proof.
  eexists [(0, 1); (10, 2); (20, 3); (30, 4); (40, 5)], _. split; [simpl; lia|]. split; [reflexivity|reflexivity].
Qed.

Lemma csv_single_row_raises : exists (rows : list (sample Z)) section cs,
  increasing rows /\ half_open section /\ csv_load rows tf_cleared [section] 0 2 = (cs, Some ValueError).
Proof.
  eexists [(0, 1); (10, 2); (20, 3); (30, 4)], (mkTF (Some 0) (Some 30) true false false), _.
  split; [simpl; lia|]. split; [reflexivity|reflexivity].
Qed.

Lemma end_row_outside_timeframe : exists (rows : list (sample Z)) t x,
  increasing rows /\ In x rows /\ hdf_get_timeframe rows tf_cleared = Ok t /\ ~ inTFc t (fst x).
Proof.
  eexists [(0, 1); (10, 2)], _, (10, 2). split; [simpl; lia|]. split; [simpl; auto|]. split; [reflexivity|].
  intros (_ & _ & H). specialize (H 10 eq_refl). simpl in H. destruct H as [H|[H _]]; [lia|discriminate].
Qed.

Lemma csv_load_all {A} (rows : list (sample A)) window n c bs :
  increasing rows -> (1 <= c)%nat -> cut c rows bs ->
  forall sections ms, Forall2 (visible rows window) sections ms ->
  (forall s b k, In s sections -> In b bs -> visible b window s k -> length k <> 1%nat) ->
  exists css, csv_load rows window sections n c = (concat css, None) /\
    Forall2 (fun m cs => concat (map c_rows cs) = m /\
       Forall (fun ch => (2 <= length (c_rows ch) <= c)%nat) cs /\ Forall (look_ahead_right rows n) cs /\
       Forall frame_of_rows cs) ms css.
Proof.
  intros Hinc Hc Hcut sections ms HF. induction HF as [|s m sections ms Hm HF IH]; intros Hone.
  - exists []. split; [reflexivity|constructor].
  - destruct IH as (css & Hcss & HI). { intros s' b k Hs'. apply Hone. right. exact Hs'. }
    destruct (csv_section rows window s m n c bs Hinc Hc Hm Hcut) as [C1 _].
    destruct C1 as (cs & Hcs & J). { intros b k. apply Hone. left. reflexivity. }
    exists (cs :: css). split; [simpl; rewrite Hcs, Hcss; reflexivity|constructor; assumption].
Qed.

Lemma single_row_all_data : exists (rows : list (sample Z)) window section m,
  increasing rows /\ half_open window /\ half_open section /\ visible rows window section m /\ m <> [] /\
  power_series_all_data (hdf_load rows window [section] 0 10) = Ok None.
Proof.
  destruct single_row_lost as (rows & window & section & m & H1 & H2 & H3 & H4 & H5 & H6).
  exists rows, window, section, m. rewrite H6. repeat (split; [assumption|]). reflexivity.
Qed.
