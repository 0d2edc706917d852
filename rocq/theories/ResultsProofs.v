(** Lemmas about Results. *)
From Verif Require Import Base TimeFrameModel TimeFrameSpec TimeFrameProofs SortLib ResultsModel ResultsSpec.
From Coq Require Import QArith Sorted Permutation.
Open Scope Z_scope.

(** ** Sorting *)

Lemma key_leb_total a b : key_leb a b = true \/ key_leb b a = true.
Proof. destruct a, b; simpl; auto. lia. Qed.

Lemma key_leb_trans a b c : key_leb a b = true -> key_leb b c = true -> key_leb a c = true.
Proof. destruct a, b, c; simpl; auto; try discriminate. lia. Qed.

Lemma key_leb_antisym a b : key_leb a b = true -> key_leb b a = true -> a = b.
Proof. destruct a, b; simpl; auto; try discriminate. intros; f_equal; lia. Qed.

Section SortLemmas.
Context {A : Type} (key : A -> option Z).
Definition kle (x y : A) : Prop := key_leb (key x) (key y) = true.

Lemma insert_by_perm x l : Permutation (insert_by key x l) (x :: l).
Proof.
  induction l as [|y r IH]; simpl; auto.
  destruct (key_leb (key x) (key y)); auto.
  rewrite IH. apply perm_swap.
Qed.

Lemma sort_by_perm l : Permutation (sort_by key l) l.
Proof. induction l as [|x r IH]; simpl; auto. rewrite insert_by_perm. auto. Qed.

Lemma insert_by_sorted x l : StronglySorted kle l -> StronglySorted kle (insert_by key x l).
Proof.
  induction l as [|y r IH]; simpl; intros H; [repeat constructor|].
  inversion H as [|? ? Hr Hy]; subst.
  destruct (key_leb (key x) (key y)) eqn:E.
  - constructor; auto. constructor; auto.
    eapply Forall_impl; [|exact Hy]. intros z Hz. eapply key_leb_trans; eauto.
  - constructor; auto.
    eapply Permutation_Forall; [symmetry; apply insert_by_perm|].
    constructor; auto. unfold kle. destruct (key_leb_total (key x) (key y)); congruence.
Qed.

Lemma sort_by_sorted l : StronglySorted kle (sort_by key l).
Proof. induction l as [|x r IH]; simpl; [constructor|]. apply insert_by_sorted; auto. Qed.

Lemma sorted_unique l : forall l', StronglySorted kle l -> StronglySorted kle l' ->
  Permutation l l' -> NoDup (map key l) -> l = l'.
Proof.
  induction l as [|x r IH]; intros l' Hl Hl' Hp Hn.
  - apply Permutation_nil in Hp. auto.
  - destruct l' as [|y r']; [apply Permutation_sym, Permutation_nil in Hp; discriminate|].
    inversion Hl as [|? ? Hr Hx]; subst. inversion Hl' as [|? ? Hr' Hy]; subst.
    assert (E : key x = key y).
    { assert (Iy : In y (x :: r)) by (eapply Permutation_in; [symmetry; exact Hp|left; auto]).
      assert (Ix : In x (y :: r')) by (eapply Permutation_in; [exact Hp|left; auto]).
      apply key_leb_antisym.
      - destruct Iy as [->|Iy]; [destruct (key_leb_total (key y) (key y)); auto|].
        rewrite Forall_forall in Hx. apply Hx; auto.
      - destruct Ix as [->|Ix]; [destruct (key_leb_total (key x) (key x)); auto|].
        rewrite Forall_forall in Hy. apply Hy; auto. }
    assert (x = y).
    { assert (Iy : In y (x :: r)) by (eapply Permutation_in; [symmetry; exact Hp|left; auto]).
      destruct Iy as [->|Iy]; auto.
      inversion Hn as [|? ? Hnin _]; subst. exfalso. apply Hnin. rewrite E. apply in_map; auto. }
    subst y. f_equal. apply IH; auto.
    + eapply Permutation_cons_inv; eauto.
    + inversion Hn; auto.
Qed.

End SortLemmas.

Lemma kle_start {A} (l : table A) : StronglySorted (kle r_start) l <-> sorted_by_start l.
Proof.
  assert (E : forall a b : row A, kle r_start a b <-> start_before a b).
  { intros a b. unfold kle, start_before, key_leb. destruct (r_start a), (r_start b); split; intros; try lia; auto; discriminate || contradiction. }
  unfold sorted_by_start. induction l as [|x r IH]; split; intros H; try constructor; inversion H; subst;
  try tauto; (eapply Forall_impl; [|eassumption]); intros; apply E; auto.
Qed.

(** ** Overlap checks *)

Definition rdisj {A B} (r : row A) (q : row B) : Prop := forall i, ~ (row_covers r i /\ row_covers q i).

Lemma row_tf_cases {A} (r : row A) :
  (row_ordered r /\ exists t, row_tf r = Ok t /\ (forall i, inTF t i <-> row_covers r i))
  \/ (~ row_ordered r /\ row_tf r = Err ValueError).
Proof.
  unfold row_tf. destruct (mk_outcome (r_start r) (r_end r)) as [(t & Ht & Hs & He & Hemp & _ & Ho)|(Ht & a & b & Ha & Hb & Hab)].
  - left. split; [intros s e H1 H2; eauto|]. exists t. split; auto.
    intros i. unfold inTF, row_covers. rewrite Hs, He, Hemp. tauto.
  - right. split; auto. intros H. specialize (H a b Ha Hb). lia.
Qed.

Lemma check_overlap_cases a b :
  (check_for_overlap a b = Ok tt /\ forall i, ~ (inTF a i /\ inTF b i))
  \/ (check_for_overlap a b = Err ValueError /\ exists i, inTF a i /\ inTF b i).
Proof.
  unfold check_for_overlap. destruct (intersection_spec a b) as (c & Hc & Hin & Hemp & Hord).
  rewrite Hc. simpl. destruct (tf_empty c) eqn:E.
  - left. split; auto. apply Hemp. auto.
  - right. split; auto.
    destruct (half_open_nonempty (tf_start c) (tf_end c)) as [i Hi].
    + intros s e Hs He. exact (Hord s e Hs He).
    + exists i. apply Hin. unfold inTF. rewrite E. split; auto.
Qed.

Lemma rdisj_sym {A B} (r : row A) (q : row B) : rdisj r q -> rdisj q r.
Proof. unfold rdisj. intros H i. specialize (H i). tauto. Qed.

Lemma rows_disjoint_cons {A} (r : row A) l :
  rows_disjoint (r :: l) <-> Forall (rdisj r) l /\ rows_disjoint l.
Proof.
  split.
  - intros H. split.
    + apply Forall_forall. intros q Hq i [H1 H2].
      apply In_nth_error in Hq. destruct Hq as [n Hn].
      specialize (H 0%nat (S n) r q i eq_refl Hn H1 H2). discriminate.
    + intros j k a b i Hj Hk Ha Hb. specialize (H (S j) (S k) a b i Hj Hk Ha Hb). congruence.
  - intros [HF HD] [|j] [|k] a b i Hj Hk Ha Hb; simpl in Hj, Hk; auto.
    + inversion Hj; subst. apply nth_error_In in Hk. rewrite Forall_forall in HF. destruct (HF b Hk i); auto.
    + inversion Hk; subst. apply nth_error_In in Hj. rewrite Forall_forall in HF. destruct (HF a Hj i); auto.
    + f_equal. eapply HD; eauto.
Qed.

Lemma rows_disjoint_perm {A} (l l' : table A) : Permutation l l' -> rows_disjoint l -> rows_disjoint l'.
Proof.
  induction 1 as [|x l l' Hp IH|x y l|l1 l2 l3 H1 IH1 H2 IH2]; auto.
  - rewrite !rows_disjoint_cons. intros [HF HD]. split; auto. eapply Permutation_Forall; eauto.
  - rewrite !rows_disjoint_cons. intros [HF [HF' HD]]. inversion HF; subst.
    repeat split; auto. constructor; auto. apply rdisj_sym; auto.
Qed.

Lemma append_check_cases {A} (data : table A) t : Forall row_ordered data ->
  (append_check data t = Ok tt /\ forall r i, In r data -> ~ (row_covers r i /\ inTF t i))
  \/ (append_check data t = Err ValueError /\ exists r i, In r data /\ row_covers r i /\ inTF t i).
Proof.
  induction data as [|r l IH]; simpl; intros HF; [left; split; auto|].
  inversion HF as [|? ? Hr Hl]; subst.
  destruct (row_tf_cases r) as [(_ & f & Hf & Hin)|(Hn & _)]; [|contradiction].
  rewrite Hf. simpl. destruct (check_overlap_cases f t) as [[Hc Hd]|[Hc (i & Hi)]]; rewrite Hc; simpl.
  - destruct (IH Hl) as [[-> H]|[-> (q & i & Hq & H1)]].
    + left. split; auto. intros q i [<-|Hq]; [|eauto]. rewrite <- Hin. apply Hd.
    + right. split; auto. exists q, i. auto.
  - right. split; auto. exists r, i. rewrite <- Hin. tauto.
Qed.

Lemma check_row_cases {A} t (l : table A) :
  (check_row t l = Ok tt /\ Forall row_ordered l /\ forall r i, In r l -> ~ (inTF t i /\ row_covers r i))
  \/ (check_row t l = Err ValueError /\ (~ Forall row_ordered l \/ exists r i, In r l /\ row_covers r i /\ inTF t i)).
Proof.
  induction l as [|r l IH]; simpl; [left; auto|].
  destruct (row_tf_cases r) as [(Ho & f & Hf & Hin)|(Hn & Hf)]; rewrite Hf; simpl.
  - destruct (check_overlap_cases t f) as [[Hc Hd]|[Hc (i & Hi)]]; rewrite Hc; simpl.
    + destruct (IH) as [(-> & HF & H)|(-> & H)].
      * left. split; auto. split; auto. intros q i [<-|Hq]; [|eauto]. rewrite <- Hin. apply Hd.
      * right. split; auto. destruct H as [H|(q & i & Hq & H)].
        { left. intros HF. inversion HF; auto. }
        { right. exists q, i. auto. }
    + right. split; auto. right. exists r, i. rewrite <- Hin. tauto.
  - right. split; auto. left. intros HF. inversion HF; auto.
Qed.

Lemma results_check_cases {A} (l : table A) :
  (results_check l = Ok tt /\ Forall row_ordered l /\ rows_disjoint l)
  \/ (results_check l = Err ValueError /\ (~ Forall row_ordered l \/ ~ rows_disjoint l)).
Proof.
  induction l as [|r l IH]; simpl.
  - left. split; auto. split; auto. intros [|j] k a b i Hj; discriminate.
  - destruct (row_tf_cases r) as [(Ho & f & Hf & Hin)|(Hn & Hf)]; rewrite Hf; simpl.
    + destruct (check_row_cases f l) as [(-> & HF & Hd)|(-> & H)]; simpl.
      * destruct IH as [(-> & _ & HD)|(-> & H)].
        { left. split; auto. split; auto. apply rows_disjoint_cons. split; auto.
          apply Forall_forall. intros q Hq i Hi. apply (Hd q i Hq). rewrite Hin. auto. }
        { right. split; auto. destruct H as [H|H]; [left|right].
          - intros HF'. inversion HF'; auto.
          - intros HD. apply rows_disjoint_cons in HD. tauto. }
      * right. split; auto. destruct H as [H|(q & i & Hq & H1 & H2)].
        { left. intros HF'. inversion HF'; auto. }
        { right. intros HD. apply rows_disjoint_cons in HD. destruct HD as [HF' _].
          rewrite Forall_forall in HF'. apply (HF' q Hq i). rewrite <- Hin. auto. }
    + right. split; auto. left. intros HF'. inversion HF'; auto.
Qed.

Lemma same_start_meet {A} (r q : row A) : row_ordered r -> row_ordered q ->
  r_start r = r_start q -> exists i, row_covers r i /\ row_covers q i.
Proof.
  intros Hr Hq E. unfold row_covers. destruct (r_start q) as [s|] eqn:Es.
  - exists s. repeat split; intros x Hx.
    + rewrite E in Hx. inversion Hx; lia.
    + exact (Hr s x E Hx).
    + inversion Hx; lia.
    + exact (Hq s x Es Hx).
  - destruct (r_end r) as [e1|] eqn:E1; destruct (r_end q) as [e2|] eqn:E2.
    + exists (Z.min e1 e2 - 1). rewrite E. repeat split; intros x Hx; inversion Hx; lia.
    + exists (e1 - 1). rewrite E. repeat split; intros x Hx; inversion Hx; lia.
    + exists (e2 - 1). rewrite E. repeat split; intros x Hx; inversion Hx; lia.
    + exists 0. rewrite E. repeat split; intros x Hx; inversion Hx.
Qed.

Lemma has_key_spec {A} (l : table A) k : has_key l k = true <-> In k (map r_start l).
Proof.
  induction l as [|r l IH]; simpl; [split; [discriminate|tauto]|].
  rewrite orb_true_iff, IH, oeqb_eq. tauto.
Qed.

Lemma has_dup_spec {A} (l : table A) : has_dup l = false <-> unique_index l.
Proof.
  unfold unique_index. induction l as [|r l IH]; simpl.
  - split; [constructor|auto].
  - rewrite orb_false_iff, IH. rewrite <- not_true_iff_false, has_key_spec.
    split; [intros [H1 H2]; constructor; auto|intros H; inversion H; auto].
Qed.

Lemma disjoint_unique {A} (l : table A) : Forall row_ordered l -> rows_disjoint l -> unique_index l.
Proof.
  unfold unique_index. induction l as [|r l IH]; simpl; intros HF HD; [constructor|].
  inversion HF as [|? ? Hr Hl]; subst. apply rows_disjoint_cons in HD. destruct HD as [HD HD'].
  constructor; auto. intros HI. apply in_map_iff in HI. destruct HI as (q & Eq & Hq).
  rewrite Forall_forall in HD. rewrite Forall_forall in Hl.
  destruct (same_start_meet r q Hr (Hl q Hq) (eq_sym Eq)) as [i Hi]. exact (HD q Hq i Hi).
Qed.

Lemma row_of_covers {A} t (v : A) i : tf_empty t = false -> (row_covers (row_of (t, v)) i <-> inTF t i).
Proof. unfold row_covers, inTF, row_of; simpl. tauto. Qed.

Lemma row_of_ordered {A} t (v : A) : ordered t -> row_ordered (row_of (t, v)).
Proof. intros H s e; simpl; auto. Qed.

(** The outcome of one append. *)
Lemma append_outcome {A} (data : table A) t v :
  Forall row_ordered data -> rows_disjoint data -> usable t ->
  (exists d, results_append data t v = Ok d /\ Permutation d (row_of (t, v) :: data) /\
     sorted_by_start d /\ rows_disjoint d /\ Forall row_ordered d /\
     forall r i, In r data -> ~ (row_covers r i /\ inTF t i))
  \/ (results_append data t v = Err ValueError /\
      exists r i, In r data /\ row_covers r i /\ inTF t i).
Proof.
  intros HF HD [He Ho]. unfold results_append.
  destruct (append_check_cases data t HF) as [[-> H]|[-> H]]; simpl; [left|right; auto].
  assert (P : Permutation (data ++ [mkRow (tf_start t) (tf_end t) v]) (row_of (t, v) :: data)).
  { symmetry. apply Permutation_cons_append. }
  assert (HD' : rows_disjoint (row_of (t, v) :: data)).
  { apply rows_disjoint_cons. split; auto. apply Forall_forall. intros q Hq i [H1 H2].
    apply (H q i Hq). rewrite row_of_covers in H1; auto. }
  assert (HF' : Forall row_ordered (row_of (t, v) :: data)).
  { constructor; auto. }
  assert (U : has_dup (data ++ [mkRow (tf_start t) (tf_end t) v]) = false).
  { apply has_dup_spec. apply disjoint_unique.
    - eapply Permutation_Forall; [symmetry; exact P|auto].
    - eapply rows_disjoint_perm; [symmetry; exact P|auto]. }
  rewrite U. eexists. split; [reflexivity|].
  assert (P' : Permutation (sort_by r_start (data ++ [mkRow (tf_start t) (tf_end t) v])) (row_of (t, v) :: data)).
  { rewrite sort_by_perm. exact P. }
  split; [exact P'|]. split; [apply kle_start, sort_by_sorted|].
  split; [eapply rows_disjoint_perm; [symmetry; exact P'|auto]|].
  split; [eapply Permutation_Forall; [symmetry; exact P'|auto]|auto].
Qed.

Lemma update_outcome {A} (data new : table A) : new <> [] ->
  exists d, Permutation d (data ++ new) /\ sorted_by_start d /\
  ((results_update data new = (d, None) /\ rows_disjoint d /\ Forall row_ordered d)
   \/ (results_update data new = (d, Some ValueError) /\
       (~ rows_disjoint (data ++ new) \/ ~ Forall row_ordered (data ++ new)))).
Proof.
  intros Hn. exists (sort_by r_start (data ++ new)).
  split; [apply sort_by_perm|]. split; [apply kle_start, sort_by_sorted|].
  unfold results_update. destruct new as [|x new]; [congruence|].
  destruct (results_check_cases (sort_by r_start (data ++ x :: new))) as [(-> & HF & HD)|(-> & H)].
  - left. auto.
  - right. split; auto. destruct H as [H|H]; [right|left]; intros C; apply H.
    + eapply Permutation_Forall; [symmetry; apply sort_by_perm|auto].
    + eapply rows_disjoint_perm; [symmetry; apply sort_by_perm|auto].
Qed.

Lemma history_invariant {A} (h : list (op A)) : forall data,
  Forall row_ordered data -> rows_disjoint data -> sorted_by_start data ->
  appends_usable h -> no_failed_update data h ->
  rows_disjoint (run data h) /\ sorted_by_start (run data h) /\ Forall row_ordered (run data h) /\
  Permutation (run data h) (data ++ accepted data h).
Proof.
  induction h as [|o h IH]; intros data HF HD HS HU HN; simpl.
  - rewrite app_nil_r. auto.
  - simpl in HN. destruct HN as [HN1 HN2].
    assert (HU' : appends_usable h) by (intros t v Hi; apply (HU t v); right; auto).
    destruct o as [t v|new].
    + assert (Ht : usable t) by (apply (HU t v); left; auto).
      cbn [call op_rows] in *.
      destruct (append_outcome data t v HF HD Ht) as [(d & E & P & S & D & F & _)|(E & _)]; rewrite E in *; simpl in *.
      * destruct (IH d F D S HU' HN2) as (H1 & H2 & H3 & H4). repeat split; auto.
        etransitivity; [exact H4|]. etransitivity; [apply Permutation_app_tail; exact P|]. apply Permutation_middle.
      * apply IH; auto.
    + cbn [call op_rows] in *. destruct new as [|x new].
      * simpl in *. apply IH; auto.
      * destruct (update_outcome data (x :: new)) as (d & P & S & [(E & D & F)|(E & _)]); [congruence| |];
        rewrite E in *; simpl in HN1, HN2; [|discriminate].
        cbn [fst snd] in *.
        destruct (IH d F D S HU' HN2) as (H1 & H2 & H3 & H4). repeat split; auto.
        etransitivity; [exact H4|]. etransitivity; [apply Permutation_app_tail; exact P|]. rewrite <- app_assoc. reflexivity.
Qed.

Lemma empty_start {A} : Forall row_ordered (@nil (row A)) /\ rows_disjoint (@nil (row A)) /\ sorted_by_start (@nil (row A)).
Proof. split; [constructor|]. split; [intros [|j] k a b i Hj; discriminate|constructor]. Qed.

Lemma history_from_empty {A} (h : list (op A)) :
  appends_usable h -> no_failed_update [] h ->
  rows_disjoint (run [] h) /\ sorted_by_start (run [] h) /\ Forall row_ordered (run [] h) /\
  Permutation (run [] h) (accepted [] h).
Proof. destruct (@empty_start A) as (H1 & H2 & H3). intros. apply (history_invariant h []); auto. Qed.

(** ** Order independence *)

Lemma append_all_outcome {A} (l : list (tf * A)) : forall data,
  Forall (fun p => usable (fst p)) l -> Forall row_ordered data -> sorted_by_start data ->
  rows_disjoint (map row_of l ++ data) ->
  exists d, append_all l data = Ok d /\ Permutation d (map row_of l ++ data) /\ sorted_by_start d.
Proof.
  unfold append_all. induction l as [|[t v] l IH]; intros data HU HF HS HD.
  - exists data. simpl. auto.
  - inversion HU as [|? ? Ht HU']; subst. cbn [foldM map app fst snd] in *.
    change (row_of (t, v) :: map row_of l ++ data) with ([row_of (t, v)] ++ map row_of l ++ data) in HD.
    assert (HD2 : rows_disjoint (map row_of l ++ row_of (t, v) :: data)).
    { eapply rows_disjoint_perm; [|exact HD]. simpl. apply Permutation_middle. }
    assert (HD3 : rows_disjoint (row_of (t, v) :: data)).
    { clear - HD2. induction (map row_of l) as [|x r IHr]; auto. simpl in HD2.
      apply rows_disjoint_cons in HD2. tauto. }
    apply rows_disjoint_cons in HD3. destruct HD3 as [HD3 HD4].
    destruct (append_outcome data t v HF HD4 Ht) as [(d & E & P & S & D & F & _)|(E & q & i & Hq & H1 & H2)].
    + rewrite E. simpl.
      destruct (IH d HU' F S) as (d' & E' & P' & S').
      * eapply rows_disjoint_perm; [|exact HD2]. apply Permutation_app_head. symmetry; auto.
      * exists d'. split; auto. split; auto. rewrite P', P. symmetry. apply Permutation_middle.
    + exfalso. rewrite Forall_forall in HD3. apply (HD3 q Hq i). split; auto.
      apply row_of_covers; [destruct Ht; auto|auto].
Qed.

Lemma no_overlap_rows {A} (l : list (tf * A)) : Forall (fun p => usable (fst p)) l ->
  no_overlap (map fst l) -> rows_disjoint (map row_of l).
Proof.
  intros HU HN j k r q i Hj Hk Hr Hq.
  rewrite nth_error_map in Hj, Hk.
  destruct (nth_error l j) as [[t v]|] eqn:Ej; [|discriminate].
  destruct (nth_error l k) as [[u w]|] eqn:Ek; [|discriminate].
  simpl in Hj, Hk. inversion Hj; subst. inversion Hk; subst.
  rewrite Forall_forall in HU.
  assert (Ut := HU _ (nth_error_In _ _ Ej)). assert (Uu := HU _ (nth_error_In _ _ Ek)).
  destruct Ut as [Ut _], Uu as [Uu _].
  apply (HN j k t u i).
  - rewrite nth_error_map, Ej. auto.
  - rewrite nth_error_map, Ek. auto.
  - apply (row_of_covers t v); auto.
  - apply (row_of_covers u w); auto.
Qed.

Lemma append_order_independent {A} (l l' : list (tf * A)) :
  Forall (fun p => usable (fst p)) l -> no_overlap (map fst l) -> Permutation l l' ->
  exists d, append_all l [] = Ok d /\ append_all l' [] = Ok d /\ Permutation d (map row_of l).
Proof.
  intros HU HN HP.
  assert (HD := no_overlap_rows l HU HN).
  assert (HU' : Forall (fun p => usable (fst p)) l') by (eapply Permutation_Forall; eauto).
  assert (HD' : rows_disjoint (map row_of l')) by (eapply rows_disjoint_perm; [apply Permutation_map; exact HP|auto]).
  destruct (@empty_start A) as (H1 & H2 & H3).
  destruct (append_all_outcome l [] HU H1 H3) as (d & E & P & S); [rewrite app_nil_r; auto|].
  destruct (append_all_outcome l' [] HU' H1 H3) as (d' & E' & P' & S'); [rewrite app_nil_r; auto|].
  rewrite app_nil_r in P, P'.
  exists d. split; auto. split; [|auto]. rewrite E'. f_equal. symmetry.
  apply (sorted_unique r_start).
  - apply kle_start; auto.
  - apply kle_start; auto.
  - rewrite P, P'. apply Permutation_map; auto.
  - assert (U : unique_index (map row_of l)).
    { apply disjoint_unique; auto. apply Forall_forall. intros r Hr. apply in_map_iff in Hr.
      destruct Hr as ([t v] & <- & Hp). rewrite Forall_forall in HU. apply row_of_ordered. apply (HU _ Hp). }
    unfold unique_index in U. eapply Permutation_NoDup; [|exact U]. symmetry. apply Permutation_map; auto.
Qed.

(** ** Unify *)

Lemma Forall2_imp {A B} (R S : A -> B -> Prop) l l' : (forall a b, R a b -> S a b) -> Forall2 R l l' -> Forall2 S l l'.
Proof. intros H. induction 1; constructor; auto. Qed.


Lemma rows_at_in {A} (l : table A) k r : In r (rows_at l k) <-> In r l /\ r_start r = k.
Proof. unfold rows_at. rewrite filter_In, oeqb_eq. tauto. Qed.

Lemma rows_at_none {A} (l : table A) k : ~ In k (map r_start l) -> rows_at l k = [].
Proof.
  induction l as [|x l IH]; simpl; auto. intros H.
  destruct (oeqb (r_start x) k) eqn:E.
  - apply oeqb_eq in E. tauto.
  - apply IH. tauto.
Qed.

Lemma rows_at_unique {A} (l : table A) r : unique_index l -> In r l -> rows_at l (r_start r) = [r].
Proof.
  unfold unique_index. induction l as [|x l IH]; simpl; intros HN HI; [contradiction|].
  inversion HN as [|? ? Hx HN']; subst. destruct HI as [->|HI].
  - assert (E : oeqb (r_start r) (r_start r) = true) by (apply oeqb_eq; auto).
    rewrite E. f_equal. apply rows_at_none; auto.
  - destruct (oeqb (r_start x) (r_start r)) eqn:E.
    + apply oeqb_eq in E. exfalso. apply Hx. rewrite E. apply in_map; auto.
    + apply IH; auto.
Qed.

Lemma end_differs_false a b : end_differs a b = false <-> a = b /\ b <> None.
Proof.
  destruct a as [x|], b as [y|]; simpl; split; intros H; try discriminate.
  - split; [f_equal; lia|discriminate].
  - destruct H as [H _]. inversion H. lia.
  - destruct H as [H _]. discriminate.
  - destruct H as [H _]. discriminate.
  - destruct H as [_ H]. congruence.
Qed.

Lemma unify_check_ok {A B} (data : table A) (other : table B) : unique_index other ->
  (unify_check data other = Ok tt <-> forall r, In r data -> exists q, In q other /\ same_period r q).
Proof.
  intros HU. induction data as [|r l IH]; simpl; [split; auto; intros _ r []|].
  split.
  - destruct (rows_at other (r_start r)) as [|o [|o' rest]] eqn:E; try discriminate.
    destruct (end_differs (r_end o) (r_end r)) eqn:D; try discriminate.
    intros H x [<-|Hx]; [|apply IH; auto].
    apply end_differs_false in D. destruct D as [D1 D2].
    assert (Ho : In o (rows_at other (r_start r))) by (rewrite E; left; auto).
    apply rows_at_in in Ho. destruct Ho as [Ho1 Ho2].
    exists o. split; auto. unfold same_period. auto.
  - intros H. destruct (H r (or_introl eq_refl)) as (q & Hq & Hs & He & Hn).
    rewrite <- Hs. rewrite (rows_at_unique other q HU Hq).
    assert (D : end_differs (r_end q) (r_end r) = false) by (apply end_differs_false; auto).
    rewrite D. apply IH. auto.
Qed.

Lemma unify_check_err {A B} (data : table A) (other : table B) e : unique_index other ->
  unify_check data other = Err e -> e = KeyError \/ e = RuntimeError.
Proof.
  intros HU. induction data as [|r l IH]; simpl; [discriminate|].
  destruct (rows_at other (r_start r)) as [|o [|o' rest]] eqn:E.
  - intros H; inversion H; auto.
  - destruct (end_differs (r_end o) (r_end r)); auto. intros H; inversion H; auto.
  - exfalso. assert (Ho : In o (rows_at other (r_start r))) by (rewrite E; left; auto).
    apply rows_at_in in Ho. destruct Ho as [Ho1 Ho2].
    rewrite <- Ho2, (rows_at_unique other o HU Ho1) in E. discriminate.
Qed.

Lemma combine_rows_spec {A} (f : A -> A -> A) (data other : table A) : unique_index other ->
  (forall r, In r data -> exists q, In q other /\ same_period r q) ->
  Forall2 (fun r x => period x = period r /\
     exists q, In q other /\ same_period r q /\ r_val x = f (r_val r) (r_val q)) data (combine_rows f data other).
Proof.
  intros HU. unfold combine_rows. induction data as [|r l IH]; simpl; intros H; constructor.
  - destruct (H r (or_introl eq_refl)) as (q & Hq & Hs & He & Hn).
    rewrite <- Hs. rewrite (rows_at_unique other q HU Hq). simpl.
    split; [unfold period; simpl; congruence|]. exists q. split; auto. split; auto. split; auto.
  - apply IH. auto.
Qed.

(** Same-period tables: unify works cell by cell. *)
Lemma same_periods_unique {A} P (data : table A) : proper_periods P -> same_periods P data -> unique_index data.
Proof.
  intros [HN _] H. unfold unique_index. unfold same_periods in H.
  rewrite <- H in HN. rewrite map_map in HN. simpl in HN. exact HN.
Qed.

Lemma same_periods_match {A B} P (data : table A) (other : table B) :
  proper_periods P -> same_periods P data -> same_periods P other ->
  forall k r q, nth_error data k = Some r -> nth_error other k = Some q -> same_period r q.
Proof.
  intros [_ HE] H1 H2 k r q Hr Hq. unfold same_periods in *.
  assert (E1 : nth_error (map period data) k = Some (period r)) by (rewrite nth_error_map, Hr; auto).
  assert (E2 : nth_error (map period other) k = Some (period q)) by (rewrite nth_error_map, Hq; auto).
  rewrite H1 in E1. rewrite H2 in E2. rewrite E1 in E2. inversion E2 as [[Ha Hb]].
  split; auto. split; auto. rewrite Forall_forall in HE. apply nth_error_In in E1. apply (HE _ E1).
Qed.

Lemma same_periods_length {A} P (data : table A) : same_periods P data -> length data = length P.
Proof. intros <-. symmetry. apply map_length. Qed.

Lemma same_periods_ok {A B} P (data : table A) (other : table B) :
  proper_periods P -> same_periods P data -> same_periods P other ->
  forall r, In r data -> exists q, In q other /\ same_period r q.
Proof.
  intros HP H1 H2 r Hr. apply In_nth_error in Hr. destruct Hr as [k Hk].
  destruct (nth_error other k) as [q|] eqn:E.
  - exists q. split; [eapply nth_error_In; eauto|]. eapply same_periods_match; eauto.
  - apply nth_error_None in E. assert (k < length data)%nat by (apply nth_error_Some; congruence).
    rewrite (same_periods_length P data H1) in H. rewrite (same_periods_length P other H2) in E. lia.
Qed.

Lemma combine_rows_same {A} (f : A -> A -> A) P (data other : table A) :
  proper_periods P -> same_periods P data -> same_periods P other ->
  same_periods P (combine_rows f data other) /\
  forall k r q, nth_error data k = Some r -> nth_error other k = Some q ->
    nth_error (combine_rows f data other) k = Some (mkRow (r_start r) (r_end r) (f (r_val r) (r_val q))).
Proof.
  intros HP H1 H2. split.
  - unfold same_periods, combine_rows in *. rewrite map_map. etransitivity; [|exact H1].
    apply map_ext_in. intros r Hr. destruct (rows_at other (r_start r)); auto.
  - intros k r q Hr Hq. unfold combine_rows. rewrite nth_error_map, Hr. simpl.
    destruct (same_periods_match P data other HP H1 H2 k r q Hr Hq) as (Hs & _ & _).
    rewrite <- Hs. rewrite (rows_at_unique other q (same_periods_unique P other HP H2) (nth_error_In _ _ Hq)).
    rewrite Hs. auto.
Qed.

Lemma uniform_has_col a r p data : uniform a r p data -> data <> [] ->
  has_col en_active data = a /\ has_col en_reactive data = r /\ has_col en_apparent data = p.
Proof.
  unfold uniform, has_col. induction data as [|x l IH]; intros H Hn; [congruence|].
  inversion H as [|? ? (Ha & Hr & Hp) Hl]; subst. destruct l as [|y l].
  - simpl. destruct (en_active (r_val x)), (en_reactive (r_val x)), (en_apparent (r_val x)); auto.
  - destruct (IH Hl ltac:(discriminate)) as (E1 & E2 & E3).
    cbn [existsb] in *. rewrite E1, E2, E3.
    destruct (en_active (r_val x)), (en_reactive (r_val x)), (en_apparent (r_val x)); auto.
Qed.

Definition cadd (a b : energies) : energies :=
  mkEn (oadd (en_active a) (en_active b)) (oadd (en_reactive a) (en_reactive b)) (oadd (en_apparent a) (en_apparent b)).

Lemma oadd_some_l a b c : is_some a = c -> is_some b = c -> is_some (oadd a b) = c.
Proof. destruct a, b; simpl; congruence. Qed.

Lemma energy_unify_uniform P a r p data other :
  proper_periods P -> same_periods P data -> same_periods P other ->
  uniform a r p data -> uniform a r p other ->
  exists d, energy_unify data other = Ok d /\ same_periods P d /\ uniform a r p d /\
    forall f k, f = en_active \/ f = en_reactive \/ f = en_apparent -> cell f d k = cell f data k + cell f other k.
Proof.
  intros HP H1 H2 U1 U2. unfold energy_unify.
  assert (HU2 := same_periods_unique P other HP H2).
  rewrite (proj2 (unify_check_ok data other HU2) (same_periods_ok P data other HP H1 H2)). cbn [bind].
  destruct data as [|x data'].
  { assert (other = []) as ->.
    { apply length_zero_iff_nil. rewrite (same_periods_length P other H2), <- (same_periods_length P _ H1). auto. }
    exists []. split; [reflexivity|]. split; auto. split; auto. intros f k _. unfold cell. destruct k; auto. }
  assert (No : other <> []).
  { intros ->. rewrite <- H2 in H1. discriminate. }
  remember (x :: data') as data eqn:Ed. assert (Nd : data <> []) by (subst; discriminate).
  clear Ed x data'.
  destruct (uniform_has_col a r p data U1 Nd) as (A1 & A2 & A3).
  destruct (uniform_has_col a r p other U2 No) as (B1 & B2 & B3).
  unfold missing_col. rewrite A1, A2, A3, B1, B2, B3.
  rewrite !andb_negb_r. cbn [orb]. clear A1 A2 A3 B1 B2 B3.
  destruct (combine_rows_same (en_add a r p) P data other HP H1 H2) as [S K].
  eexists. split; [reflexivity|]. split; [exact S|].
  assert (L : length (combine_rows (en_add a r p) data other) = length data) by (unfold combine_rows; apply map_length).
  assert (LO : length other = length data) by (rewrite (same_periods_length P data H1), (same_periods_length P other H2); auto).
  unfold uniform in U1, U2. rewrite Forall_forall in U1, U2.
  split.
  - unfold uniform. apply Forall_forall. intros y Hy. apply In_nth_error in Hy. destruct Hy as [k Hk].
    assert (k < length data)%nat by (rewrite <- L; apply nth_error_Some; congruence).
    destruct (nth_error data k) as [u|] eqn:Eu; [|apply nth_error_None in Eu; lia].
    destruct (nth_error other k) as [w|] eqn:Ew; [|apply nth_error_None in Ew; lia].
    rewrite (K k u w Eu Ew) in Hk. inversion Hk; subst y. cbn [r_val en_add en_active en_reactive en_apparent].
    destruct (U1 u (nth_error_In _ _ Eu)) as (C1 & C2 & C3).
    destruct (U2 w (nth_error_In _ _ Ew)) as (D1 & D2 & D3).
    repeat split.
    + destruct a; auto. apply oadd_some_l; auto.
    + destruct r; auto. apply oadd_some_l; auto.
    + destruct p; auto. apply oadd_some_l; auto.
  - intros f k Hf. unfold cell.
    destruct (nth_error data k) as [u|] eqn:Eu.
    + destruct (nth_error other k) as [w|] eqn:Ew.
      2:{ apply nth_error_None in Ew. assert (k < length data)%nat by (apply nth_error_Some; congruence). lia. }
      rewrite (K k u w Eu Ew). cbn [r_val].
      destruct (U1 u (nth_error_In _ _ Eu)) as (C1 & C2 & C3).
      destruct (U2 w (nth_error_In _ _ Ew)) as (D1 & D2 & D3).
      destruct Hf as [->|[->| ->]]; cbn [en_add en_active en_reactive en_apparent].
      * destruct (en_active (r_val u)), (en_active (r_val w)); simpl in *; subst; simpl; auto; try discriminate.
      * destruct (en_reactive (r_val u)), (en_reactive (r_val w)); simpl in *; subst; simpl; auto; try discriminate.
      * destruct (en_apparent (r_val u)), (en_apparent (r_val w)); simpl in *; subst; simpl; auto; try discriminate.
    + assert (E1 : nth_error other k = None) by (apply nth_error_None; apply nth_error_None in Eu; lia).
      assert (E2 : nth_error (combine_rows (en_add a r p) data other) k = None) by (apply nth_error_None; apply nth_error_None in Eu; lia).
      rewrite E1, E2. auto.
Qed.

Lemma unify_all_uniform P a r p l : forall first,
  proper_periods P -> same_periods P first -> Forall (same_periods P) l ->
  uniform a r p first -> Forall (uniform a r p) l ->
  exists d, unify_all l first = Ok d /\ same_periods P d /\ uniform a r p d /\
    forall f k, f = en_active \/ f = en_reactive \/ f = en_apparent ->
      cell f d k = cell f first k + sumZ (map (fun t => cell f t k) l).
Proof.
  unfold unify_all. induction l as [|t l IH]; intros first HP H1 HL U1 UL.
  - exists first. simpl. split; auto. split; auto. split; auto. intros. lia.
  - inversion HL; subst. inversion UL; subst. cbn [foldM].
    destruct (energy_unify_uniform P a r p first t) as (d & E & S & U & C); auto.
    rewrite E. cbn [bind]. destruct (IH d HP S) as (d' & E' & S' & U' & C'); auto.
    exists d'. split; auto. split; auto. split; auto. intros f k Hf.
    rewrite (C' f k Hf), (C f k Hf). cbn [map sumZ]. lia.
Qed.

Lemma sumZ_perm l l' : Permutation l l' -> sumZ l = sumZ l'.
Proof. induction 1; simpl; lia. Qed.

Lemma table_ext P a r p d d' : same_periods P d -> same_periods P d' -> uniform a r p d -> uniform a r p d' ->
  (forall f k, f = en_active \/ f = en_reactive \/ f = en_apparent -> cell f d k = cell f d' k) -> d = d'.
Proof.
  intros S S' U U' C. assert (M : map period d = map period d') by congruence. clear S S' P.
  revert d' M U' C. induction d as [|x d IH]; intros [|y d'] M U' C; try discriminate; auto.
  inversion M as [[Hs He Hr]]. inversion U as [|? ? (A1 & A2 & A3) Ud]; subst.
  inversion U' as [|? ? (B1 & B2 & B3) Ud']; subst. f_equal.
  - destruct x as [s1 e1 [a1 r1 p1]], y as [s2 e2 [a2 r2 p2]]. simpl in *.
    assert (C1 := C en_active 0%nat (or_introl eq_refl)).
    assert (C2 := C en_reactive 0%nat (or_intror (or_introl eq_refl))).
    assert (C3 := C en_apparent 0%nat (or_intror (or_intror eq_refl))).
    unfold cell in C1, C2, C3. simpl in C1, C2, C3.
    subst. f_equal. f_equal.
    + destruct a1, a2; simpl in *; congruence.
    + destruct r1, r2; simpl in *; congruence.
    + destruct p1, p2; simpl in *; congruence.
  - apply IH; auto. intros f k Hf. exact (C f (S k) Hf).
Qed.

Lemma unify_order_independent P a r p first l first' l' :
  proper_periods P -> Forall (same_periods P) (first :: l) -> Forall (uniform a r p) (first :: l) ->
  Permutation (first :: l) (first' :: l') ->
  exists d, unify_all l first = Ok d /\ unify_all l' first' = Ok d /\
    same_periods P d /\ uniform a r p d /\
    forall f k, f = en_active \/ f = en_reactive \/ f = en_apparent ->
      cell f d k = sumZ (map (fun t => cell f t k) (first :: l)).
Proof.
  intros HP HS HU Hp.
  assert (HS' : Forall (same_periods P) (first' :: l')) by (eapply Permutation_Forall; eauto).
  assert (HU' : Forall (uniform a r p) (first' :: l')) by (eapply Permutation_Forall; eauto).
  inversion HS; inversion HU; inversion HS'; inversion HU'; subst.
  destruct (unify_all_uniform P a r p l first) as (d & E & S & U & C); auto.
  destruct (unify_all_uniform P a r p l' first') as (d' & E' & S' & U' & C'); auto.
  exists d. split; auto. split; [|split; [auto|split; [auto|intros f k Hf; rewrite (C f k Hf); reflexivity]]].
  rewrite E'. f_equal. eapply table_ext; eauto. intros f k Hf. rewrite (C f k Hf), (C' f k Hf).
  change (sumZ (map (fun t => cell f t k) (first' :: l')) = sumZ (map (fun t => cell f t k) (first :: l))).
  apply sumZ_perm. apply Permutation_map. symmetry; auto.
Qed.

Lemma energy_unify_spec data other : unique_index other ->
  (forall r, In r data -> exists q, In q other /\ same_period r q) ->
  missing_col en_active data other = false -> missing_col en_reactive data other = false ->
  missing_col en_apparent data other = false ->
  exists d, energy_unify data other = Ok d /\
    Forall2 (fun r x => period x = period r /\ exists q, In q other /\ same_period r q /\
      (has_col en_active data = true -> en_active (r_val x) = oadd (en_active (r_val r)) (en_active (r_val q))) /\
      (has_col en_reactive data = true -> en_reactive (r_val x) = oadd (en_reactive (r_val r)) (en_reactive (r_val q))) /\
      (has_col en_apparent data = true -> en_apparent (r_val x) = oadd (en_apparent (r_val r)) (en_apparent (r_val q)))) data d.
Proof.
  intros HU HM M1 M2 M3. unfold energy_unify. rewrite (proj2 (unify_check_ok data other HU) HM). cbn [bind].
  rewrite M1, M2, M3. cbn [orb]. eexists. split; [reflexivity|].
  eapply Forall2_imp; [|apply combine_rows_spec; auto].
  intros r x (H1 & q & Hq & Hp & Hv). split; auto. exists q. split; auto. split; auto.
  rewrite Hv. unfold en_add. cbn [en_active en_reactive en_apparent].
  split; [intros ->; auto|]. split; intros ->; auto.
Qed.

Lemma energy_unify_rejects data other r : unique_index other -> In r data ->
  (forall q, In q other -> ~ same_period r q) ->
  energy_unify data other = Err KeyError \/ energy_unify data other = Err RuntimeError.
Proof.
  intros HU Hr Hn. unfold energy_unify.
  destruct (unify_check data other) as [[]|e] eqn:E.
  - exfalso. apply (unify_check_ok data other HU) with (r := r) in E; auto.
    destruct E as (q & Hq & Hp). exact (Hn q Hq Hp).
  - apply unify_check_err in E; auto. simpl. destruct E as [->| ->]; auto.
Qed.

Lemma update_not_atomic : exists (data new d : table Z) e,
  rows_disjoint data /\ results_update data new = (d, Some e) /\ d <> data /\ ~ rows_disjoint d.
Proof.
  exists [mkRow (Some 0) (Some 10) 1], [mkRow (Some 5) (Some 15) 2]. do 2 eexists.
  split.
  { apply rows_disjoint_cons. split; [constructor|]. intros [|j] k a b i Hj; discriminate. }
  split; [reflexivity|]. split; [discriminate|].
  intros H. specialize (H 0%nat 1%nat _ _ 7 eq_refl eq_refl).
  assert (0%nat = 1%nat); [|discriminate]. apply H; split; intros x Hx; inversion Hx; lia.
Qed.

(** Appending an empty frame stores a row that reads back as unbounded. *)
Lemma empty_append_breaks : exists (data : table Z) t d,
  rows_disjoint data /\ sorted_by_start data /\ tf_empty t = true /\ canonical t /\
  results_append data t 7 = Ok d /\ ~ rows_disjoint d.
Proof.
  exists [mkRow (Some 0) (Some 10) 1], (mkTF None None true true false). eexists.
  split.
  { apply rows_disjoint_cons. split; [constructor|]. intros [|j] k a b i Hj; discriminate. }
  split; [repeat constructor|]. split; [reflexivity|].
  split; [split; [intros s e H; discriminate|auto]|]. split; [reflexivity|].
  intros H. specialize (H 0%nat 1%nat _ _ 7 eq_refl eq_refl).
  assert (0%nat = 1%nat); [|discriminate]. apply H; split; intros x Hx; inversion Hx; lia.
Qed.

(** Rows of the other table with no counterpart are silently ignored. *)
Lemma unify_ignores_extra : exists data other d q,
  unique_index data /\ unique_index other /\ energy_unify data other = Ok d /\
  In q other /\ (forall r, In r data -> ~ same_period r q) /\
  energy_combined d = (3, 0, 0) /\ en_active (r_val q) = Some 100.
Proof.
  exists [mkRow (Some 0) (Some 10) (mkEn (Some 1) None None)],
    [mkRow (Some 0) (Some 10) (mkEn (Some 2) None None); mkRow (Some 10) (Some 20) (mkEn (Some 100) None None)].
  eexists. exists (mkRow (Some 10) (Some 20) (mkEn (Some 100) None None)).
  split; [repeat constructor; simpl; intuition discriminate|].
  split; [repeat constructor; simpl; intuition discriminate|].
  split; [reflexivity|]. split; [right; left; reflexivity|].
  split; [|split; reflexivity].
  intros r [<-|[]] (H & _). discriminate.
Qed.
