(** The time frames of the chunks of a load: usable, disjoint, inside their sections. *)
From Verif Require Import Base TimeFrameModel TimeFrameSpec TimeFrameProofs ResultsModel ResultsSpec
  StoreModel StoreSpec StoreProofs StoreProofs2 GoodSectionsProofs3.
Open Scope Z_scope.

Lemma no_overlap_app l1 l2 : no_overlap l1 -> no_overlap l2 ->
  (forall a b i, In a l1 -> In b l2 -> inTF a i -> inTF b i -> False) -> no_overlap (l1 ++ l2).
Proof.
  intros H1 H2 H j k a b i Hj Hk Ha Hb.
  destruct (Nat.lt_ge_cases j (length l1)) as [Lj|Lj]; destruct (Nat.lt_ge_cases k (length l1)) as [Lk|Lk].
  - rewrite nth_error_app1 in Hj, Hk by lia. eapply H1; eassumption.
  - rewrite nth_error_app1 in Hj by lia. rewrite nth_error_app2 in Hk by lia. exfalso.
    eapply H; [eapply nth_error_In; exact Hj|eapply nth_error_In; exact Hk|exact Ha|exact Hb].
  - rewrite nth_error_app1 in Hk by lia. rewrite nth_error_app2 in Hj by lia. exfalso.
    eapply H; [eapply nth_error_In; exact Hk|eapply nth_error_In; exact Hj|exact Hb|exact Ha].
  - rewrite nth_error_app2 in Hj, Hk by lia. assert (j - length l1 = k - length l1)%nat by (eapply H2; eassumption). lia.
Qed.

Lemma no_overlap_one t : no_overlap [t].
Proof. intros [|[|j]] [|[|k]] a b i; cbn; congruence. Qed.

Lemma no_overlap_tail t l : no_overlap (t :: l) -> no_overlap l /\ forall b i, In b l -> inTF t i -> inTF b i -> False.
Proof.
  intros H. split.
  - intros j k a b i Hj Hk Ha Hb. assert (S j = S k) by (eapply H; [exact Hj|exact Hk|exact Ha|exact Hb]). lia.
  - intros b i Hb H1 H2. apply In_nth_error in Hb. destruct Hb as [k Hk].
    assert (0 = S k)%nat by (eapply H; [reflexivity|exact Hk|exact H1|exact H2]). lia.
Qed.

Lemma chain_usable l : forall s e, chain s l e -> Forall usable l.
Proof.
  induction l as [|p r IH]; cbn [chain]; intros s e H; [constructor|]. destruct H as (m & (B1 & B2 & B3 & B4) & Hr). constructor; [|eapply IH; exact Hr].
  split; [assumption|]. intros x y Hx Hy. congruence.
Qed.

Lemma section_frames {A} (rows : list (sample A)) window section m n c :
  increasing rows -> (1 <= c)%nat -> half_open window -> half_open section -> usable section ->
  visible rows window section m -> servable rows window c section m ->
  exists cs, hdf_load_section rows window section n c = (cs, None) /\ section_served c m cs /\
    Forall (fun ch => usable (c_tf ch)) cs /\ no_overlap (map c_tf cs) /\
    Forall (fun ch => forall i, inTF (c_tf ch) i -> inTF section i) cs.
Proof.
  intros Hinc Hc Hw Hs Hu Hv Hsv.
  destruct (intersection_spec window section) as (w & Hiw & Hi & Hem & Hord).
  destruct (Nat.le_gt_cases 2 (length m)) as [H2|H2].
  - destruct (section_chain rows window section w m n c Hinc Hc Hw Hs Hiw Hv Hsv H2) as (cs & s & e & Hcs & Hd & Hch & Hce).
    exists cs. split; [exact Hcs|]. split; [split; [intros ->; cbn in H2; lia|intros _; exact Hd]|].
    split; [apply Forall_map; eapply chain_usable; exact Hch|]. split; [eapply chain_no_overlap; exact Hch|].
    rewrite Forall_forall. intros ch Hin i Hin2. assert (Hse : s <= i < e).
    { apply (chain_covers _ _ _ Hch). exists (c_tf ch). split; [apply in_map; exact Hin|exact Hin2]. }
    apply Hi. assert (Hwe : tf_empty w = false).
    { destruct (tf_empty w) eqn:E; [|reflexivity]. exfalso. destruct m as [|x m]; [cbn in H2; lia|].
      assert (Hx : In x (x :: m)) by (left; reflexivity). apply (is_filter_in _ _ _ _ Hv) in Hx. destruct Hx as [_ Hx].
      exact (proj1 Hem eq_refl _ Hx). }
    split; [exact Hwe|]. destruct Hce as [C1 C2]. split.
    + intros s' Es. destruct C1 as [C1|[C1 _]]; [|congruence]. assert (s' = s) by congruence. lia.
    + intros e' Ee. destruct C2 as [C2|[C2 _]]; [|congruence]. assert (e' = e) by congruence. lia.
  - destruct Hsv as [Hone Hunb]. assert (m = []) by (destruct m as [|x [|y m]]; [reflexivity|cbn in Hone; lia|cbn in H2; lia]). subst m.
    assert (Goal1 : exists t, hdf_load_section rows window section n c = ([mkChunk [] None t], None) /\ (t = section \/ (t = w /\ tf_empty w = false))).
    { destruct (tf_empty w) eqn:E.
      - exists section. unfold hdf_load_section. rewrite Hiw, E. split; [reflexivity|left; reflexivity].
      - pose proof (visible_period _ _ _ _ _ Hw Hs Hiw Hv) as Hp.
        destruct (tf_start w) as [s|] eqn:Es; [|destruct (tf_end w) as [e|] eqn:Ee].
        1,2: destruct (section_bounded rows window section w [] n c Hinc Hc Hiw E) as (B0 & B1 & B2);
         [first [left; congruence|right; congruence]|exact Hp|]; exists w; split; [apply B0; reflexivity|right; split; reflexivity].
        exists section. split; [|left; reflexivity]. destruct (section_unbounded rows window section w n c Hinc Hc Hiw E Es Ee) as (U & _).
        apply U. destruct rows as [|x rows]; [cbn; lia|exfalso].
        assert (Hx : In x []).
        { apply (is_filter_in _ _ _ _ Hv). split; [left; reflexivity|]. apply Hi. split; [exact E|]. rewrite Es, Ee. split; discriminate. }
        destruct Hx. }
    destruct Goal1 as (t & Ht & Hcase). exists [mkChunk [] None t]. split; [exact Ht|].
    split; [split; [intros _; exists t; reflexivity|congruence]|].
    split; [constructor; [|constructor]; cbn [c_tf]; destruct Hcase as [->|[-> E]]; [exact Hu|split; assumption]|].
    split; [apply no_overlap_one|]. constructor; [|constructor]. cbn [c_tf]. intros i H. destruct Hcase as [->|[-> E]]; [exact H|]. apply Hi. exact H.
Qed.

Lemma load_frames {A} (rows : list (sample A)) window n c : increasing rows -> (1 <= c)%nat -> half_open window ->
  forall sections ms, Forall half_open sections -> Forall usable sections -> no_overlap sections ->
  Forall2 (fun s m => visible rows window s m) sections ms -> Forall2 (fun s m => servable rows window c s m) sections ms ->
  exists css, hdf_load rows window sections n c = (concat css, None) /\ Forall2 (section_served c) ms css /\
    Forall (fun ch => usable (c_tf ch)) (concat css) /\ no_overlap (map c_tf (concat css)) /\
    Forall (fun ch => exists s, In s sections /\ forall i, inTF (c_tf ch) i -> inTF s i) (concat css) /\
    Forall2 (fun s cs => hdf_load_section rows window s n c = (cs, None)) sections css.
Proof.
  intros Hinc Hc Hw. induction sections as [|s sections IH]; intros ms Hs Hu Hn Hv Hsv.
  - inversion Hv; subst. exists []. repeat split; try constructor. intros [|j] k a b i; cbn; discriminate.
  - inversion Hv as [|? m ? ms' V1 V2]; subst. inversion Hsv as [|? ? ? ? S1 S2]; subst.
    apply Forall_cons_iff in Hs. destruct Hs as [Hs1 Hs2]. apply Forall_cons_iff in Hu. destruct Hu as [Hu1 Hu2].
    destruct (no_overlap_tail _ _ Hn) as [Hn2 Hn3].
    destruct (IH ms' Hs2 Hu2 Hn2 V2 S2) as (css & E & Q1 & Q2 & Q3 & Q4 & Q5).
    destruct (section_frames rows window s m n c Hinc Hc Hw Hs1 Hu1 V1 S1) as (cs & E1 & R1 & R2 & R3 & R4).
    exists (cs :: css). cbn [hdf_load concat]. rewrite E, E1. split; [reflexivity|].
    split; [constructor; assumption|]. split; [apply Forall_app; split; assumption|]. split.
    + rewrite map_app. apply no_overlap_app; [exact R3|exact Q3|]. intros a b i Ha Hb Hai Hbi.
      apply in_map_iff in Ha. destruct Ha as (ca & <- & Ha). apply in_map_iff in Hb. destruct Hb as (cb & <- & Hb).
      rewrite Forall_forall in R4, Q4. destruct (Q4 _ Hb) as (s' & Hs' & Hin). exact (Hn3 s' i Hs' (R4 _ Ha i Hai) (Hin i Hbi)).
    + split; [|constructor; assumption]. apply Forall_app. split.
      * eapply Forall_impl; [|exact R4]. cbv beta. intros ch H. exists s. split; [left; reflexivity|exact H].
      * eapply Forall_impl; [|exact Q4]. cbv beta. intros ch (s' & H1 & H2). exists s'. split; [right; exact H1|exact H2].
Qed.
