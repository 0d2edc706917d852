From Verif Require Import Base TimeFrameModel TimeFrameSpec.
Open Scope Z_scope.

(** ** Basic facts *)

Lemma mk_ok s e : (forall a b, s = Some a -> e = Some b -> a < b) ->
  mk s e = Ok (mkTF s e true false false).
Proof.
  intros H. unfold mk, set_start, set_end, bind, tf_cleared, tf_start, tf_end; simpl.
  destruct s as [a|]; destruct e as [b|]; simpl; auto.
  specialize (H a b eq_refl eq_refl).
  destruct (b <=? a) eqn:E; [lia|auto].
Qed.

Lemma mk_err s e : e <= s -> mk (Some s) (Some e) = Err ValueError.
Proof.
  intros H. unfold mk, set_start, set_end, bind, tf_cleared, tf_start, tf_end; simpl.
  destruct (e <=? s) eqn:E; [auto|lia].
Qed.

Lemma mk_inv s e t : mk s e = Ok t ->
  t = mkTF s e true false false /\ (forall a b, s = Some a -> e = Some b -> a < b).
Proof.
  intros H. destruct s as [a|]; destruct e as [b|];
  unfold mk, set_start, set_end, bind, tf_cleared, tf_start, tf_end in H; simpl in H;
  try (inversion H; subst; split; auto; intros; discriminate).
  destruct (b <=? a) eqn:E; [discriminate|].
  inversion H; subst. split; auto. intros a0 b0 H0 H1; inversion H0; inversion H1; subst; lia.
Qed.

Lemma inTFb_spec t i : inTFb t i = true <-> inTF t i.
Proof.
  unfold inTFb, inTF. rewrite !andb_true_iff, negb_true_iff.
  destruct (tf_start t) as [s|]; destruct (tf_end t) as [e|]; split.
  all: try (intros [[H1 H2] H3]; repeat split; auto; intros x Hx; inversion Hx; subst; lia).
  all: intros [H1 [H2 H3]]; repeat split; auto.
  all: try specialize (H2 _ eq_refl); try specialize (H3 _ eq_refl); lia.
Qed.

Lemma inTF_bounded t s e i : bounded t s e -> (inTF t i <-> s <= i < e).
Proof.
  intros (Hs & He & Hm & Hlt). unfold inTF. rewrite Hs, He. split.
  - intros (_ & H1 & H2). specialize (H1 _ eq_refl); specialize (H2 _ eq_refl); lia.
  - intros H. repeat split; auto; intros x Hx; inversion Hx; subst; lia.
Qed.

(** ** C01 *)

Lemma set_start_outcome t o :
  (exists t', set_start t o = Ok t' /\ tf_start_ t' = o /\ tf_end_ t' = tf_end_ t
     /\ tf_enabled t' = tf_enabled t /\ tf_empty t' = tf_empty t /\ tf_incl t' = tf_incl t
     /\ (forall s e, o = Some s -> tf_end t = Some e -> s < e))
  \/ (set_start t o = Err ValueError /\ exists s e, o = Some s /\ tf_end t = Some e /\ e <= s).
Proof.
  unfold set_start. destruct o as [s|].
  - destruct (tf_end t) as [e|] eqn:He.
    + destruct (s >=? e) eqn:E.
      * right. split; auto. exists s, e. repeat split; auto. lia.
      * left. eexists; split; [reflexivity|]. simpl. repeat split; auto.
        intros a b Ha Hb; inversion Ha; inversion Hb; subst; lia.
    + left. eexists; split; [reflexivity|]. simpl. repeat split; auto. intros; discriminate.
  - left. eexists; split; [reflexivity|]. simpl. repeat split; auto. intros; discriminate.
Qed.

Lemma set_end_outcome t o :
  (exists t', set_end t o = Ok t' /\ tf_end_ t' = o /\ tf_start_ t' = tf_start_ t
     /\ tf_enabled t' = tf_enabled t /\ tf_empty t' = tf_empty t /\ tf_incl t' = tf_incl t
     /\ (forall s e, tf_start t = Some s -> o = Some e -> s < e))
  \/ (set_end t o = Err ValueError /\ exists s e, tf_start t = Some s /\ o = Some e /\ e <= s).
Proof.
  unfold set_end. destruct o as [e|].
  - destruct (tf_start t) as [s|] eqn:He.
    + destruct (e <=? s) eqn:E.
      * right. split; auto. exists s, e. repeat split; auto. lia.
      * left. eexists; split; [reflexivity|]. simpl. repeat split; auto.
        intros a b Ha Hb; inversion Ha; inversion Hb; subst; lia.
    + left. eexists; split; [reflexivity|]. simpl. repeat split; auto. intros; discriminate.
  - left. eexists; split; [reflexivity|]. simpl. repeat split; auto. intros; discriminate.
Qed.

(** Invariant on the stored ends, whatever [enabled] is. *)
Definition stored_ordered (t : tf) : Prop :=
  forall s e, tf_start_ t = Some s -> tf_end_ t = Some e -> s < e.

Lemma stored_ordered_ordered t : stored_ordered t -> ordered t.
Proof.
  unfold stored_ordered, ordered, tf_start, tf_end. destruct (tf_enabled t); auto.
  intros _ s e H; discriminate.
Qed.

Lemma edit_stored_ordered t ed b :
  tf_enabled t = b -> (match ed with SetEnabled _ => True | _ => b = true end) ->
  stored_ordered t -> stored_ordered (apply_edit t ed).
Proof.
  intros Hb Hd Ho. destruct ed as [o|o|b']; simpl.
  - subst b. destruct (set_start_outcome t o) as [(t' & -> & H1 & H2 & _ & _ & _ & H)|[-> _]]; auto.
    unfold stored_ordered. rewrite H1, H2. intros s e Hs He.
    apply (H s e Hs). unfold tf_end. rewrite Hd. exact He.
  - subst b. destruct (set_end_outcome t o) as [(t' & -> & H1 & H2 & _ & _ & _ & H)|[-> _]]; auto.
    unfold stored_ordered. rewrite H1, H2. intros s e Hs He.
    apply (H s e); auto. unfold tf_start. rewrite Hd. exact Hs.
  - exact Ho.
Qed.

Lemma edit_enabled t ed :
  tf_enabled (apply_edit t ed) = match ed with SetEnabled b => b | _ => tf_enabled t end.
Proof.
  destruct ed as [o|o|b]; simpl; auto.
  - destruct (set_start_outcome t o) as [(t' & -> & _ & _ & H & _)|[-> _]]; auto.
  - destruct (set_end_outcome t o) as [(t' & -> & _ & _ & H & _)|[-> _]]; auto.
Qed.

Lemma history_stored_ordered l : forall t,
  disciplined (tf_enabled t) l -> stored_ordered t ->
  stored_ordered (fold_left apply_edit l t).
Proof.
  induction l as [|ed r IH]; intros t Hd Ho; simpl; auto.
  apply IH.
  - rewrite edit_enabled. destruct ed; simpl in Hd; tauto.
  - eapply edit_stored_ordered; [reflexivity| |exact Ho].
    destruct ed; simpl in Hd; tauto.
Qed.

Lemma history_ordered s e t l :
  mk s e = Ok t -> disciplined true l -> ordered (fold_left apply_edit l t).
Proof.
  intros Hm Hd. apply mk_inv in Hm as [-> H].
  apply stored_ordered_ordered, history_stored_ordered; auto.
Qed.

(** ** C02 *)

Lemma isect_start_le a b i :
  (forall s, isect_start a b = Some s -> s <= i) <->
  (forall s, tf_start a = Some s -> s <= i) /\ (forall s, tf_start b = Some s -> s <= i).
Proof.
  unfold isect_start. destruct (tf_start a) as [x|]; destruct (tf_start b) as [y|]; split.
  all: try (intros H; split; intros s Hs; inversion Hs; subst; specialize (H _ eq_refl); lia).
  all: intros [H1 H2] s Hs; inversion Hs; subst;
    try specialize (H1 _ eq_refl); try specialize (H2 _ eq_refl); lia.
Qed.

Lemma isect_end_lt a b i :
  (forall s, isect_end a b = Some s -> i < s) <->
  (forall s, tf_end a = Some s -> i < s) /\ (forall s, tf_end b = Some s -> i < s).
Proof.
  unfold isect_end. destruct (tf_end a) as [x|]; destruct (tf_end b) as [y|]; split.
  all: try (intros H; split; intros s Hs; inversion Hs; subst; specialize (H _ eq_refl); lia).
  all: intros [H1 H2] s Hs; inversion Hs; subst;
    try specialize (H1 _ eq_refl); try specialize (H2 _ eq_refl); lia.
Qed.

(** Closed form of [intersection]. *)
Lemma intersection_cases a b :
  (tf_empty a || tf_empty b = true /\ intersection a b = Ok (mkTF None None true true false))
  \/ (tf_empty a || tf_empty b = false /\
      (exists s e, isect_start a b = Some s /\ isect_end a b = Some e /\ e <= s) /\
      intersection a b = Ok (mkTF None None true true (isect_incl a b)))
  \/ (tf_empty a || tf_empty b = false /\
      (forall s e, isect_start a b = Some s -> isect_end a b = Some e -> s < e) /\
      intersection a b = Ok (mkTF (isect_start a b) (isect_end a b) true false (isect_incl a b))).
Proof.
  unfold intersection. destruct (tf_empty a || tf_empty b) eqn:Em.
  - left. split; auto.
  - right.
    destruct (isect_start a b) as [s|] eqn:Es; destruct (isect_end a b) as [e|] eqn:Ee.
    2-4: right; split; [auto|]; split; [intros; discriminate|];
      unfold mk_flags; rewrite mk_ok by (intros; discriminate); reflexivity.
    destruct (s >=? e) eqn:E.
    + left. repeat split; auto. exists s, e. repeat split; auto. lia.
    + right. assert (Hlt : s < e) by lia. repeat split; auto.
      * intros s' e' H1 H2; inversion H1; inversion H2; subst; lia.
      * unfold mk_flags. rewrite mk_ok by (intros a0 b0 H1 H2; inversion H1; inversion H2; subst; lia).
        reflexivity.
Qed.

Lemma inTF_dec_both a b i :
  inTF a i /\ inTF b i <->
  tf_empty a || tf_empty b = false /\
  (forall s, isect_start a b = Some s -> s <= i) /\
  (forall e, isect_end a b = Some e -> i < e).
Proof.
  rewrite isect_start_le, isect_end_lt, orb_false_iff. unfold inTF. tauto.
Qed.

Lemma half_open_nonempty (s e : option Z) :
  (forall a b, s = Some a -> e = Some b -> a < b) ->
  exists i, (forall a, s = Some a -> a <= i) /\ (forall b, e = Some b -> i < b).
Proof.
  intros H. destruct s as [a|].
  - exists a. split; intros x Hx; [inversion Hx; subst; lia|]. apply (H a x); auto.
  - destruct e as [b|].
    + exists (b - 1). split; intros x Hx; inversion Hx; subst; lia.
    + exists 0. split; intros x Hx; inversion Hx.
Qed.

Lemma intersection_spec a b : exists c,
  intersection a b = Ok c /\
  (forall i, inTF c i <-> inTF a i /\ inTF b i) /\
  (tf_empty c = true <-> forall i, ~ (inTF a i /\ inTF b i)) /\
  ordered c.
Proof.
  destruct (intersection_cases a b) as [(Em & E)|[(Em & (s & e & Es & Ee & Hle) & E)|(Em & Hlt & E)]];
  rewrite E; eexists; (split; [reflexivity|]); split; [|split| |split| |split].
  - intros i. rewrite inTF_dec_both. unfold inTF; simpl. split; [intros [? _]; discriminate|].
    intros [? _]; congruence.
  - simpl. split; auto. intros _ i. rewrite inTF_dec_both. intros [? _]; congruence.
  - intros x y H; discriminate.
  - intros i. rewrite inTF_dec_both. unfold inTF; simpl. split; [intros [? _]; discriminate|].
    rewrite Es, Ee. intros (_ & H1 & H2). specialize (H1 _ eq_refl); specialize (H2 _ eq_refl); lia.
  - simpl. split; auto. intros _ i. rewrite inTF_dec_both. rewrite Es, Ee.
    intros (_ & H1 & H2). specialize (H1 _ eq_refl); specialize (H2 _ eq_refl); lia.
  - intros x y H; discriminate.
  - intros i. rewrite inTF_dec_both. unfold inTF, tf_start, tf_end; simpl. tauto.
  - simpl. split; [discriminate|]. intros H. exfalso.
    destruct (half_open_nonempty (isect_start a b) (isect_end a b) Hlt) as (i & H1 & H2).
    apply (H i). rewrite inTF_dec_both. auto.
  - intros x y H1 H2. unfold tf_start, tf_end in *; simpl in *. auto.
Qed.

Lemma intersection_canonical a b c : intersection a b = Ok c -> canonical c.
Proof.
  destruct (intersection_cases a b) as [(Em & E)|[(Em & _ & E)|(Em & Hlt & E)]];
  rewrite E; intros H; inversion H; subst; split.
  all: try (intros x y H1 H2; unfold tf_start, tf_end in *; simpl in *; auto; discriminate).
  all: intros Hc; simpl in *; auto; discriminate.
Qed.

Lemma same_instants_eq a b : canonical a -> canonical b ->
  (forall i, inTF a i <-> inTF b i) -> tf_eq a b = true.
Proof.
  intros [Oa Ca] [Ob Cb] H.
  assert (Hne : forall t, ordered t -> tf_empty t = false -> exists i, inTF t i).
  { intros t Ot Ht. destruct (half_open_nonempty _ _ Ot) as (i & H1 & H2).
    exists i. repeat split; auto. }
  assert (Hem : tf_empty a = tf_empty b).
  { destruct (tf_empty a) eqn:Ea; destruct (tf_empty b) eqn:Eb; auto; exfalso.
    - destruct (Hne b Ob Eb) as [i Hi]. apply H in Hi. destruct Hi as [Hi _]. congruence.
    - destruct (Hne a Oa Ea) as [i Hi]. apply H in Hi. destruct Hi as [Hi _]. congruence. }
  unfold tf_eq. rewrite Hem, eqb_reflx, andb_true_r.
  destruct (tf_empty b) eqn:Eb.
  - destruct (Ca Hem) as [-> ->]. destruct (Cb eq_refl) as [-> ->]. reflexivity.
  - unfold ordered in *. unfold inTF in H. rewrite Hem, Eb in H.
    assert (H' : forall i, ((forall s, tf_start a = Some s -> s <= i) /\ (forall e, tf_end a = Some e -> i < e))
       <-> ((forall s, tf_start b = Some s -> s <= i) /\ (forall e, tf_end b = Some e -> i < e))).
    { intros i. specialize (H i). tauto. }
    clear H Hne Ca Cb Hem Eb. 
    destruct (half_open_nonempty _ _ Oa) as (i0 & Hi1 & Hi2).
    pose proof (proj1 (H' i0) (conj Hi1 Hi2)) as [Hj1 Hj2].
    (* below i0 only starts matter, above only ends *)
    assert (HS : forall i, i <= i0 -> ((forall s, tf_start a = Some s -> s <= i) <-> (forall s, tf_start b = Some s -> s <= i))).
    { intros i Hi. specialize (H' i).
      assert (forall e, tf_end a = Some e -> i < e) by (intros e He; specialize (Hi2 e He); lia).
      assert (forall e, tf_end b = Some e -> i < e) by (intros e He; specialize (Hj2 e He); lia).
      tauto. }
    assert (HE : forall i, i0 <= i -> ((forall s, tf_end a = Some s -> i < s) <-> (forall s, tf_end b = Some s -> i < s))).
    { intros i Hi. specialize (H' i).
      assert (forall e, tf_start a = Some e -> e <= i) by (intros e He; specialize (Hi1 e He); lia).
      assert (forall e, tf_start b = Some e -> e <= i) by (intros e He; specialize (Hj1 e He); lia).
      tauto. }
    apply andb_true_iff; split.
    + destruct (tf_start b) as [y|] eqn:Eb; destruct (tf_start a) as [x|] eqn:Ea; simpl; auto.
      * specialize (Hi1 x eq_refl); specialize (Hj1 y eq_refl).
        destruct (HS x Hi1) as [H1 _]. destruct (HS y Hj1) as [_ H2].
        assert (y <= x) by (apply H1; auto; intros s Hs; inversion Hs; lia).
        assert (x <= y) by (apply H2; auto; intros s Hs; inversion Hs; lia). lia.
      * exfalso. specialize (Hj1 y eq_refl). destruct (HS (y-1)) as [H1 _]; [lia|].
        assert (y <= y - 1) by (apply H1; auto; intros; discriminate). lia.
      * exfalso. specialize (Hi1 x eq_refl). destruct (HS (x-1)) as [_ H1]; [lia|].
        assert (x <= x - 1) by (apply H1; auto; intros; discriminate). lia.
    + destruct (tf_end b) as [y|] eqn:Eb; destruct (tf_end a) as [x|] eqn:Ea; simpl; auto.
      * specialize (Hi2 x eq_refl); specialize (Hj2 y eq_refl).
        destruct (HE (x-1)) as [H1 _]; [lia|]. destruct (HE (y-1)) as [_ H2]; [lia|].
        assert (x - 1 < y) by (apply H1; auto; intros s Hs; inversion Hs; lia).
        assert (y - 1 < x) by (apply H2; auto; intros s Hs; inversion Hs; lia). lia.
      * exfalso. specialize (Hj2 y eq_refl). destruct (HE y) as [H1 _]; [lia|].
        assert (y < y) by (apply H1; auto; intros; discriminate). lia.
      * exfalso. specialize (Hi2 x eq_refl). destruct (HE x) as [_ H1]; [lia|].
        assert (x < x) by (apply H1; auto; intros; discriminate). lia.
Qed.

Lemma intersection_comm a b : exists c d,
  intersection a b = Ok c /\ intersection b a = Ok d /\ tf_eq c d = true.
Proof.
  destruct (intersection_spec a b) as (c & Ec & Hc & _).
  destruct (intersection_spec b a) as (d & Ed & Hd & _).
  exists c, d. repeat split; auto. apply same_instants_eq; eauto using intersection_canonical.
  intros i. rewrite Hc, Hd. tauto.
Qed.

Lemma intersection_assoc a b c : exists ab bc l r,
  intersection a b = Ok ab /\ intersection ab c = Ok l /\
  intersection b c = Ok bc /\ intersection a bc = Ok r /\ tf_eq l r = true.
Proof.
  destruct (intersection_spec a b) as (ab & Eab & Hab & _).
  destruct (intersection_spec ab c) as (l & El & Hl & _).
  destruct (intersection_spec b c) as (bc & Ebc & Hbc & _).
  destruct (intersection_spec a bc) as (r & Er & Hr & _).
  exists ab, bc, l, r. repeat split; auto. apply same_instants_eq; eauto using intersection_canonical.
  intros i. rewrite Hl, Hr, Hab, Hbc. tauto.
Qed.

Lemma intersection_idem a : canonical a -> exists c, intersection a a = Ok c /\ tf_eq c a = true.
Proof.
  intros Ha. destruct (intersection_spec a a) as (c & Ec & Hc & _).
  exists c. split; auto. apply same_instants_eq; eauto using intersection_canonical.
  intros i. rewrite Hc. tauto.
Qed.

(** ** C03 *)

Lemma isect_incl_case a b e : isect_end a b = Some e ->
  (tf_end b = Some e /\ isect_incl a b = tf_incl b /\ (forall x, tf_end a = Some x -> e <= x))
  \/ (tf_end a = Some e /\ isect_incl a b = tf_incl a /\ (forall x, tf_end b = Some x -> e < x)).
Proof.
  unfold isect_incl. intros H. rewrite H. unfold isect_end in H.
  destruct (tf_end b) as [y|] eqn:Eb; destruct (tf_end a) as [x|] eqn:Ea; inversion H; subst; simpl.
  - destruct (Z.min x y =? y) eqn:E1.
    + left. replace (Z.min x y) with y by lia. repeat split; auto.
      intros z Hz; inversion Hz; subst; lia.
    + right. replace (Z.min x y) with x by lia. rewrite Z.eqb_refl. repeat split; auto.
      intros z Hz; inversion Hz; subst; lia.
  - left. rewrite Z.eqb_refl. repeat split; auto. intros; discriminate.
  - right. rewrite Z.eqb_refl. repeat split; auto. intros; discriminate.
Qed.

Lemma inTFc_both_start a b i :
  inTFc a i -> inTFc b i -> (forall s, isect_start a b = Some s -> s <= i).
Proof. intros Ha Hb. apply isect_start_le. split; [apply Ha|apply Hb]. Qed.

Lemma closed_intersection_exact a b : ordered a -> ordered b ->
  exists c, intersection a b = Ok c /\
  ((forall i, inTFc c i <-> inTFc a i /\ inTFc b i) <-> ~ end_point_bad a b).
Proof.
  intros Oa Ob.
  destruct (intersection_cases a b) as [(Em & E)|[(Em & (s & e & Es & Ee & Hle) & E)|(Em & Hlt & E)]];
  rewrite E; eexists; (split; [reflexivity|]).
  - (* an empty argument *)
    split.
    + intros _ (H1 & H2 & _). rewrite H1, H2 in Em. discriminate.
    + intros _ i. unfold inTFc; simpl. split; [intros [? _]; discriminate|].
      intros [[H1 _] [H2 _]]. rewrite H1, H2 in Em. discriminate.
  - apply orb_false_iff in Em as [Ea Eb].
    split.
    + intros H (_ & _ & [(x & H1 & H2 & _)|[(x & H1 & H2 & H3)|(x & H1 & H2 & H3)]]).
      * (* equal ends cannot give an empty result *)
        assert (Hs : s < x).
        { unfold isect_start in Es. destruct (tf_start a) as [sa|] eqn:Sa; destruct (tf_start b) as [sb|] eqn:Sb; inversion Es; subst.
          - specialize (Oa _ _ Sa H1); specialize (Ob _ _ Sb H2); lia.
          - specialize (Oa _ _ Sa H1); lia.
          - specialize (Ob _ _ Sb H2); lia. }
        unfold isect_end in Ee. rewrite H1, H2 in Ee. inversion Ee; subst. lia.
      * assert (Hin : inTFc a x /\ inTFc b x).
        { split; (split; [auto|split]).
          - intros y Hy. specialize (Oa _ _ Hy H1). lia.
          - intros y Hy. right. split; auto. congruence.
          - intros y Hy. rewrite H2 in Hy; inversion Hy; lia.
          - intros y Hy. left. apply (Ob _ _ H2 Hy). }
        apply H in Hin. destruct Hin as [Hc _]. discriminate.
      * assert (Hin : inTFc a x /\ inTFc b x).
        { split; (split; [auto|split]).
          - intros y Hy. rewrite H2 in Hy; inversion Hy; lia.
          - intros y Hy. left. apply (Oa _ _ H2 Hy).
          - intros y Hy. specialize (Ob _ _ Hy H1). lia.
          - intros y Hy. right. split; auto. congruence. }
        apply H in Hin. destruct Hin as [Hc _]. discriminate.
    + intros Hb i. split; [intros [? _]; discriminate|]. intros [Ha' Hb']. exfalso. apply Hb.
      pose proof (inTFc_both_start _ _ _ Ha' Hb' _ Es) as Hsi.
      destruct Ha' as (_ & Ha1 & Ha2). destruct Hb' as (_ & Hb1 & Hb2).
      split; [auto|split; [auto|]].
      unfold isect_start in Es; unfold isect_end in Ee.
      destruct (tf_start a) as [sa|] eqn:Sa; destruct (tf_start b) as [sb|] eqn:Sb;
      destruct (tf_end a) as [ea|] eqn:Xa; destruct (tf_end b) as [eb|] eqn:Xb;
        inversion Es; inversion Ee; subst;
      repeat match goal with
      | H : forall s, Some ?x = Some s -> _ |- _ => specialize (H x eq_refl)
      | H : ordered ?t, H1 : tf_start ?t = Some ?s, H2 : tf_end ?t = Some ?e |- _ =>
          pose proof (H _ _ H1 H2); clear H
      | H : _ \/ _ |- _ => destruct H as [H|[? H]]
      end; try lia; right;
      solve [ left; eexists; split; [reflexivity|]; split; [f_equal; lia | intuition lia]
            | right; eexists; split; [reflexivity|]; split; [f_equal; lia | intuition lia] ].
  - apply orb_false_iff in Em as [Ea Eb].
    split.
    + intros H (_ & _ & [(x & H1 & H2 & H3 & H4)|[(x & H1 & H2 & H3)|(x & H1 & H2 & H3)]]).
      * assert (Hee : isect_end a b = Some x).
        { unfold isect_end. rewrite H1, H2. f_equal. lia. }
        assert (Hc : inTFc (mkTF (isect_start a b) (isect_end a b) true false (isect_incl a b)) x).
        { unfold inTFc, tf_start, tf_end; simpl. split; auto. split.
          - intros s Hs. specialize (Hlt _ _ Hs Hee). lia.
          - intros e He. right. unfold isect_incl. rewrite Hee, H2. simpl. rewrite Z.eqb_refl.
            split; auto. congruence. }
        apply H in Hc. destruct Hc as [(_ & _ & Hc) _]. specialize (Hc x H1).
        destruct Hc as [Hc|[Hc _]]; [lia|congruence].
      * exfalso. assert (exists s, isect_start a b = Some s /\ x <= s) as (s & Hs & Hxs).
        { unfold isect_start. rewrite H2. destruct (tf_start a); eexists; split; eauto; lia. }
        assert (exists e, isect_end a b = Some e /\ e <= x) as (e & He & Hxe).
        { unfold isect_end. rewrite H1. destruct (tf_end b); eexists; split; eauto; lia. }
        specialize (Hlt _ _ Hs He). lia.
      * exfalso. assert (exists s, isect_start a b = Some s /\ x <= s) as (s & Hs & Hxs).
        { unfold isect_start. rewrite H2. destruct (tf_start b); eexists; split; eauto; lia. }
        assert (exists e, isect_end a b = Some e /\ e <= x) as (e & He & Hxe).
        { unfold isect_end. rewrite H1. destruct (tf_end a); eexists; split; eauto; lia. }
        specialize (Hlt _ _ Hs He). lia.
    + intros Hb i. unfold inTFc at 1, tf_start at 1, tf_end at 1; simpl. split.
      * intros (_ & H1 & H2).
        apply isect_start_le in H1 as [Hs1 Hs2].
        destruct (isect_end a b) as [e|] eqn:Ee.
        -- specialize (H2 _ eq_refl).
           destruct (isect_incl_case _ _ _ Ee) as [(Hbe & Hi & Hx)|(Hae & Hi & Hx)].
           ++ assert (Hbi : inTFc b i).
              { split; [auto|split; [auto|]]. intros y Hy. rewrite Hbe in Hy; inversion Hy; subst.
                destruct H2 as [H2|[H2 H2']]; auto. right. split; congruence. }
              split; auto. split; [auto|split; [auto|]]. intros y Hy. specialize (Hx y Hy).
              destruct H2 as [H2|[H2 H2']]; [left; lia|].
              destruct (Z.eq_dec e y) as [->|Hn]; [|left; lia].
              right. split; auto. destruct (tf_incl a) eqn:Ia; auto. exfalso. apply Hb.
              split; [auto|split; [auto|left]]. exists y. repeat split; auto. congruence.
           ++ split; split; auto; split; auto.
              ** intros y Hy. rewrite Hae in Hy; inversion Hy; subst.
                 destruct H2 as [H2|[H2 H2']]; auto. right. split; congruence.
              ** intros y Hy. specialize (Hx y Hy). destruct H2 as [H2|[H2 H2']]; left; lia.
        -- unfold isect_end in Ee. destruct (tf_end b) eqn:Xb; [destruct (tf_end a); discriminate|].
           split; split; auto; split; auto; intros y Hy; congruence.
      * intros [(_ & Ha1 & Ha2) (_ & Hb1 & Hb2)]. split; auto. split.
        -- apply isect_start_le. auto.
        -- intros e Ee. destruct (isect_incl_case _ _ _ Ee) as [(Hbe & Hi & Hx)|(Hae & Hi & Hx)].
           ++ rewrite Hi. auto.
           ++ rewrite Hi. auto.
Qed.

(** ** C04 *)

Lemma split_loop_chain thr : 0 < thr -> forall fuel t s e,
  bounded t s e -> e - s <= thr * Z.of_nat fuel -> (0 < fuel)%nat ->
  exists l, split_loop fuel t thr = (l, None) /\ chain s l e /\
    (exists l' z, l = l' ++ [z] /\ Forall (fun p => duration_is p thr) l'
       /\ exists d, duration_is z d /\ 0 < d <= thr).
Proof.
  intros Hthr. induction fuel as [|fuel IH]; intros t s e Hb Hf Hpos; [lia|].
  destruct Hb as (Hs & He & Hm & Hlt). simpl. rewrite Hs, He.
  destruct (e <=? s + thr) eqn:E.
  - exists [t]. split; auto. split.
    + simpl. exists e. split; [repeat split; auto|reflexivity].
    + exists [], t. repeat split; auto. exists (e - s). split; [|lia]. exists s, e. auto.
  - rewrite mk_ok by (intros a b Ha Hb'; inversion Ha; inversion Hb'; subst; lia).
    rewrite mk_ok by (intros a b Ha Hb'; inversion Ha; inversion Hb'; subst; lia).
    destruct (IH (mkTF (Some (s+thr)) (Some e) true false false) (s+thr) e) as (l & El & Hc & l' & z & Hl & Hl' & Hz).
    + repeat split; auto. lia.
    + replace (Z.of_nat (S fuel)) with (Z.of_nat fuel + 1) in Hf by lia. lia.
    + destruct fuel; [|lia]. simpl in Hf. lia.
    + rewrite El. unfold gen_cons; simpl.
      eexists; split; [reflexivity|]. split.
      * exists (s+thr). split; auto. repeat split; auto. lia.
      * exists (mkTF (Some s) (Some (s + thr)) true false false :: l'), z.
        split; [subst; reflexivity|]. split; auto. constructor; auto.
        exists s, (s+thr). repeat split; auto. lia.
Qed.

Lemma split_chain t s e thr : bounded t s e -> 0 < thr ->
  exists l, split t thr = (l, None) /\ chain s l e /\
    (exists l' z, l = l' ++ [z] /\ Forall (fun p => duration_is p thr) l'
       /\ exists d, duration_is z d /\ 0 < d <= thr).
Proof.
  intros Hb Hthr. pose proof Hb as (Hs & He & Hm & Hlt). unfold split, tf_timedelta.
  rewrite Hs, He. destruct (thr >=? e - s) eqn:E.
  - exists [t]. split; auto. split.
    + simpl. exists e. auto.
    + exists [], t. repeat split; auto. exists (e - s). split; [|lia]. exists s, e. auto.
  - apply split_loop_chain; auto.
    + unfold split_fuel.
      pose proof (Z.div_mod (e - s) thr ltac:(lia)).
      pose proof (Z.mod_pos_bound (e - s) thr Hthr).
      assert (0 <= (e - s) / thr) by (apply Z.div_pos; lia).
      replace (Z.of_nat (S (Z.to_nat ((e - s) / thr)))) with ((e-s)/thr + 1) by lia. lia.
    + unfold split_fuel. lia.
Qed.

Lemma chain_le l : forall s e, chain s l e -> s <= e.
Proof.
  induction l as [|p r IH]; simpl; intros s e H; [lia|].
  destruct H as (m & (_ & _ & _ & Hlt) & Hr). apply IH in Hr. lia.
Qed.

Lemma chain_covers l : forall s e, chain s l e ->
  forall i, s <= i < e <-> exists p, In p l /\ inTF p i.
Proof.
  induction l as [|p r IH]; simpl; intros s e H i.
  - split; [lia|]. intros (p & [] & _).
  - destruct H as (m & Hb & Hr). pose proof (chain_le _ _ _ Hr).
    pose proof (inTF_bounded _ _ _ i Hb) as Hi. destruct Hb as (_ & _ & _ & Hlt).
    split.
    + intros Hx. destruct (Z_lt_dec i m).
      * exists p. split; auto. apply Hi. lia.
      * destruct (proj1 (IH _ _ Hr i)) as (q & Hq & Hq'); [lia|]. exists q; auto.
    + intros (q & [->|Hq] & Hq').
      * apply Hi in Hq'. lia.
      * assert (m <= i < e) by (apply (IH _ _ Hr i); exists q; auto). lia.
Qed.

Lemma chain_no_overlap l : forall s e, chain s l e -> no_overlap l.
Proof.
  induction l as [|p r IH]; intros s e H j k a b i Hj Hk Ha Hb.
  - destruct j; discriminate.
  - destruct H as (m & Hbd & Hr).
    assert (Hsep : forall q, In q r -> inTF q i -> inTF p i -> False).
    { intros q Hq Hqi Hpi. apply (inTF_bounded _ _ _ i Hbd) in Hpi.
      assert (m <= i < e) by (apply (chain_covers _ _ _ Hr); exists q; auto). lia. }
    destruct j as [|j]; destruct k as [|k]; simpl in Hj, Hk; auto.
    + inversion Hj; subst. exfalso. eapply Hsep; eauto using nth_error_In.
    + inversion Hk; subst. exfalso. eapply Hsep; eauto using nth_error_In.
    + f_equal. eapply (IH _ _ Hr); eauto.
Qed.

Lemma split_tiles t s e thr : bounded t s e -> 0 < thr ->
  exists l, split t thr = (l, None) /\ chain s l e /\
    Forall (fun p => exists d, duration_is p d /\ 0 < d <= thr) l /\
    (forall l' z, l = l' ++ [z] -> Forall (fun p => duration_is p thr) l') /\
    (forall i, inTF t i <-> covers l i) /\ no_overlap l.
Proof.
  intros Hb Hthr. destruct (split_chain t s e thr Hb Hthr) as (l & El & Hc & l1 & z1 & Hl & Hl' & Hz).
  exists l. repeat split; auto.
  - subst l. apply Forall_app. split.
    + eapply Forall_impl; [|exact Hl']. intros p Hp. exists thr. split; auto. lia.
    + constructor; auto.
  - intros l' z Hx. subst l. apply app_inj_tail in Hx as [-> ->]. auto.
  - intros Hi. apply (chain_covers _ _ _ Hc). apply (inTF_bounded _ _ _ i Hb). auto.
  - apply (inTF_bounded _ _ _ i Hb), (chain_covers _ _ _ Hc). exact H.
  - apply (inTF_bounded _ _ _ i Hb), (chain_covers _ _ _ Hc). exact H.
  - apply (inTF_bounded _ _ _ i Hb), (chain_covers _ _ _ Hc). exact H.
  - eapply chain_no_overlap; eauto.
Qed.

Lemma split_whole t s e thr : bounded t s e -> e - s <= thr -> split t thr = ([t], None).
Proof.
  intros (Hs & He & _ & _) H. unfold split, tf_timedelta. rewrite Hs, He.
  destruct (thr >=? e - s) eqn:E; auto. lia.
Qed.

Lemma split_nonpositive t s e thr : bounded t s e -> thr <= 0 -> split t thr = ([], Some ValueError).
Proof.
  intros (Hs & He & _ & Hlt) H. unfold split, tf_timedelta. rewrite Hs, He.
  destruct (thr >=? e - s) eqn:E; [lia|].
  unfold split_fuel. simpl. rewrite Hs, He. destruct (e <=? s + thr) eqn:E2; [lia|].
  rewrite mk_err by lia. reflexivity.
Qed.

Lemma split_timeframes_covers thr : 0 < thr -> forall l, Forall is_bounded l ->
  exists r, split_timeframes l thr = (r, None) /\
    (forall i, covers r i <-> covers l i) /\
    Forall (fun p => exists d, duration_is p d /\ 0 < d <= thr) r /\
    (no_overlap l -> no_overlap r).
Proof.
  intros Hthr. induction l as [|t l IH]; intros Hl.
  - exists []. simpl. repeat split; auto.
  - inversion Hl as [|? ? (s & e & Hb) Hl2]; subst.
    destruct (IH Hl2) as (r & Er & Hcov & Hd & Hno).
    destruct (split_tiles t s e thr Hb Hthr) as (q & Eq & Hc & Hdq & _ & Hcq & Hnq).
    simpl. rewrite Eq, Er. simpl. exists (q ++ r). split; auto. split; [|split].
    + intros i. split.
      * intros (p & Hp & Hpi). apply in_app_or in Hp as [Hp|Hp].
        -- exists t. split; [left; auto|]. apply Hcq. exists p; auto.
        -- destruct (proj1 (Hcov i)) as (p' & Hp' & Hp''); [exists p; auto|].
           exists p'. split; auto. right; auto.
      * intros (p & [->|Hp] & Hpi).
        -- apply Hcq in Hpi as (p' & H1 & H2). exists p'. split; auto. apply in_or_app; auto.
        -- destruct (proj2 (Hcov i)) as (p' & Hp' & Hp''); [exists p; auto|].
           exists p'. split; auto. apply in_or_app; auto.
    + apply Forall_app; auto.
    + intros Hno2.
      assert (Hnl : no_overlap l).
      { intros j k a b i Hj Hk Ha Hb'. assert (S j = S k); [|lia].
        eapply (Hno2 (S j) (S k) a b i); eauto. }
      specialize (Hno Hnl).
      assert (Hsep : forall p p' i, In p q -> In p' r -> inTF p i -> inTF p' i -> False).
      { intros p p' i Hp Hp' Hi Hi'.
        assert (Ht : inTF t i) by (apply Hcq; exists p; auto).
        destruct (proj1 (Hcov i)) as (u & Hu & Hui); [exists p'; auto|].
        apply In_nth_error in Hu as [k Hk].
        pose proof (Hno2 0%nat (S k) t u i eq_refl Hk Ht Hui). lia. }
      intros j k a b i Hj Hk Ha Hb'.
      destruct (lt_dec j (length q)) as [Lj|Lj]; destruct (lt_dec k (length q)) as [Lk|Lk].
      * rewrite nth_error_app1 in Hj, Hk by auto. eapply Hnq; eauto.
      * exfalso. rewrite nth_error_app1 in Hj by auto. rewrite nth_error_app2 in Hk by lia.
        apply nth_error_In in Hj, Hk. eauto.
      * exfalso. rewrite nth_error_app2 in Hj by lia. rewrite nth_error_app1 in Hk by auto.
        apply nth_error_In in Hj, Hk. eauto.
      * rewrite nth_error_app2 in Hj, Hk by lia.
        assert (j - length q = k - length q)%nat by (eapply Hno; eauto). lia.
Qed.

(** ** C05 *)

Lemma adjacent_bounded t cur ts te cs ce gap :
  bounded t ts te -> bounded cur cs ce -> 0 <= gap ->
  adjacent t cur gap = Ok (((cs - gap <=? te) && (te <=? cs)) || ((ts - gap <=? ce) && (ce <=? ts))).
Proof.
  intros (Hs & He & Hm & _) (Hs' & He' & Hm' & _) Hg. unfold adjacent.
  destruct (negb (gap >=? 0)) eqn:E; [lia|]. rewrite Hm, Hm', Hs, He, Hs', He'. simpl.
  destruct ((cs - gap <=? te) && (te <=? cs)); reflexivity.
Qed.

Lemma union_bounded t cur ts te cs ce :
  bounded t ts te -> bounded cur cs ce ->
  tf_union t cur = Ok (mkTF (Some (Z.min ts cs)) (Some (Z.max te ce)) true false false).
Proof.
  intros (Hs & He & Hm & Hlt) (Hs' & He' & Hm' & Hlt'). unfold tf_union.
  rewrite Hs, He, Hs', He'. apply mk_ok. intros a b Ha Hb; inversion Ha; inversion Hb; subst; lia.
Qed.

Lemma covers_cons t l i : covers (t :: l) i <-> inTF t i \/ covers l i.
Proof.
  unfold covers. split.
  - intros (p & [->|Hp] & Hi); [left; auto|right; exists p; auto].
  - intros [H|(p & Hp & Hi)]; [exists t; split; [left; auto|auto]|exists p; split; [right; auto|auto]].
Qed.

Lemma covers_app l1 l2 i : covers (l1 ++ l2) i <-> covers l1 i \/ covers l2 i.
Proof.
  unfold covers. split.
  - intros (p & Hp & Hi). apply in_app_or in Hp as [Hp|Hp]; [left|right]; exists p; auto.
  - intros [(p & Hp & Hi)|(p & Hp & Hi)]; exists p; split; auto; apply in_or_app; auto.
Qed.

(** Instants in an allowed gap, starting from the end [ce] of a frame. *)
Fixpoint extras (gap ce : Z) (l : list tf) (i : Z) : Prop :=
  match l with
  | [] => False
  | t :: r => exists ts te, tf_start t = Some ts /\ tf_end t = Some te /\
      ((ce <= i < ts /\ ts - ce <= gap) \/ extras gap te r i)
  end.

Lemma merge_loop_spec gap : 0 <= gap -> forall l done cur cs ce,
  bounded cur cs ce -> Forall is_bounded l -> in_order (cur :: l) ->
  exists h r, merge_loop done cur l gap = Ok (rev done ++ h :: r) /\
    Forall is_bounded (h :: r) /\ tf_start h = Some cs /\ spaced gap (h :: r) /\ in_order (h :: r) /\
    (forall i, covers (h :: r) i <-> covers (cur :: l) i \/ extras gap ce l i).
Proof.
  intros Hg. induction l as [|t l IH]; intros done cur cs ce Hc Hl Ho.
  - exists cur, []. simpl. split; [reflexivity|]. split; [constructor; auto; exists cs, ce; auto|].
    split; [apply Hc|]. split; [auto|]. split; [auto|]. intros i. tauto.
  - inversion Hl as [|? ? (ts & te & Ht) Hl2]; subst.
    destruct Ho as [Hce Ho].
    assert (Hle : ce <= ts) by (apply Hce; [apply Hc|apply Ht]).
    assert (Hts : ts < te) by apply Ht. assert (Hcs : cs < ce) by apply Hc.
    cbn [merge_loop]. rewrite (adjacent_bounded _ _ _ _ _ _ _ Ht Hc Hg). cbn [bind].
    destruct (((cs - gap <=? te) && (te <=? cs)) || ((ts - gap <=? ce) && (ce <=? ts))) eqn:E.
    + rewrite (union_bounded _ _ _ _ _ _ Ht Hc). cbn [bind].
      replace (Z.min ts cs) with cs by lia. replace (Z.max te ce) with te by lia.
      set (u := mkTF (Some cs) (Some te) true false false).
      assert (Hu : bounded u cs te) by (repeat split; lia).
      assert (Hou : in_order (u :: l)).
      { destruct l as [|t2 l]; simpl; auto. destruct Ho as [H1 H2]. split; auto.
        intros e s He Hs. apply (H1 e s); auto. inversion He; subst. apply Ht. }
      destruct (IH done u cs te Hu Hl2 Hou) as (h & r & Er & Hb & Hh & Hsp & Hor & Hcov).
      exists h, r. repeat (split; [assumption|]).
      intros i. rewrite Hcov, !covers_cons.
      pose proof (inTF_bounded _ _ _ i Hu) as Iu. pose proof (inTF_bounded _ _ _ i Hc) as Ic.
      pose proof (inTF_bounded _ _ _ i Ht) as It. rewrite Iu, Ic, It. cbn [extras].
      destruct Ht as (Ht1 & Ht2 & _). split.
      * intros [[H|H]|H].
        -- assert (Hx : (cs <= i < ce) \/ (ts <= i < te) \/ (ce <= i < ts /\ ts - ce <= gap)) by lia.
           destruct Hx as [Hx|[Hx|Hx]]; [tauto|tauto|]. right. exists ts, te. auto.
        -- tauto.
        -- right. exists ts, te. auto.
      * intros [[H|[H|H]]|(ts' & te' & H1 & H2 & H)].
        -- left; left; lia.
        -- left; left; lia.
        -- tauto.
        -- rewrite Ht1 in H1; rewrite Ht2 in H2; inversion H1; inversion H2; subst ts' te'.
           destruct H as [H|H]; [left; left; lia|tauto].
    + assert (Hgap : gap < ts - ce) by lia.
      destruct (IH (cur :: done) t ts te Ht Hl2 Ho) as (h & r & Er & Hb & Hh & Hsp & Hor & Hcov).
      exists cur, (h :: r). rewrite Er. simpl rev. rewrite <- app_assoc.
      split; [reflexivity|]. split; [constructor; auto; exists cs, ce; auto|].
      split; [apply Hc|]. split; [|split].
      * split; [|exact Hsp]. intros e s He Hs. rewrite Hh in Hs. inversion Hs; subst.
        destruct Hc as (_ & Hc & _). rewrite Hc in He. inversion He; subst. lia.
      * split; [|exact Hor]. intros e s He Hs. rewrite Hh in Hs. inversion Hs; subst.
        destruct Hc as (_ & Hc & _). rewrite Hc in He. inversion He; subst. lia.
      * intros i. rewrite covers_cons, Hcov. rewrite (covers_cons cur). cbn [extras].
        destruct Ht as (Ht1 & Ht2 & _). split.
        -- intros [H|[H|H]]; [tauto|tauto|]. right. exists ts, te. auto.
        -- intros [[H|H]|(ts' & te' & H1 & H2 & H)]; [tauto|tauto|].
           rewrite Ht1 in H1; rewrite Ht2 in H2; inversion H1; inversion H2; subst ts' te'.
           destruct H as [H|H]; [lia|tauto].
Qed.

Lemma extras_consecutive gap : forall l a ce, tf_end a = Some ce ->
  forall i, extras gap ce l i ->
  exists x y ex sy, consecutive x y (a :: l) /\ tf_end x = Some ex /\ tf_start y = Some sy /\
     ex <= i < sy /\ sy - ex <= gap.
Proof.
  induction l as [|t l IH]; intros a ce Ha i H; simpl in H; [contradiction|].
  destruct H as (ts & te & H1 & H2 & [H|H]).
  - exists a, t, ce, ts. repeat split; auto; try lia. exists [], l. reflexivity.
  - destruct (IH t te H2 i H) as (x & y & ex & sy & (l1 & l2 & Hc) & Hr).
    exists x, y, ex, sy. split; auto. exists (a :: l1), l2. simpl. f_equal. exact Hc.
Qed.

Lemma merge_loop_spaced gap : 0 <= gap -> forall l done cur,
  Forall is_bounded (cur :: l) -> in_order (cur :: l) -> spaced gap (cur :: l) ->
  merge_loop done cur l gap = Ok (rev done ++ cur :: l).
Proof.
  intros Hg. induction l as [|t l IH]; intros done cur Hb Ho Hs; simpl; auto.
  inversion Hb as [|? ? (cs & ce & Hc) Hb2]; subst. inversion Hb2 as [|? ? (ts & te & Ht) _]; subst.
  destruct Hs as [Hs1 Hs2]. destruct Ho as [Ho1 Ho2].
  rewrite (adjacent_bounded _ _ _ _ _ _ _ Ht Hc Hg). cbn [bind].
  assert (gap < ts - ce) by (apply Hs1; [apply Hc|apply Ht]).
  assert (ts < te) by apply Ht. assert (cs < ce) by apply Hc.
  destruct (((cs - gap <=? te) && (te <=? cs)) || ((ts - gap <=? ce) && (ce <=? ts))) eqn:E; [lia|].
  rewrite IH; auto. simpl. rewrite <- app_assoc. reflexivity.
Qed.

Lemma merge_spec gap l : 0 <= gap -> Forall is_bounded l -> in_order l ->
  exists r, merge_timeframes l gap = Ok r /\ Forall is_bounded r /\ in_order r /\
    spaced gap r /\
    (forall i, covers l i -> covers r i) /\
    (forall i, covers r i -> covers l i \/
       exists x y ex sy, consecutive x y l /\ tf_end x = Some ex /\ tf_start y = Some sy /\
         ex <= i < sy /\ sy - ex <= gap) /\
    merge_timeframes r gap = Ok r.
Proof.
  intros Hg Hb Ho.
  assert (Hid : forall r, Forall is_bounded r -> in_order r -> spaced gap r ->
            merge_timeframes r gap = Ok r).
  { intros r Hr Hor Hsr. destruct r as [|a [|b r]]; auto. unfold merge_timeframes.
    rewrite merge_loop_spaced; auto. }
  destruct l as [|a [|b l]].
  - exists []. simpl. repeat split; auto.
  - exists [a]. simpl. repeat split; auto.
  - pose proof Hb as Hb0. inversion Hb0 as [|? ? (cs & ce & Ha) Hb2]; subst.
    destruct (merge_loop_spec gap Hg (b :: l) [] a cs ce Ha Hb2 Ho)
      as (h & r & Er & Hbr & Hh & Hsp & Hor & Hcov).
    exists (h :: r). split; [exact Er|]. repeat (split; [assumption|]).
    split; [intros i Hi; apply Hcov; auto|]. split; [|apply Hid; auto].
    intros i Hi. apply Hcov in Hi as [Hi|Hi]; auto. right.
    apply (extras_consecutive gap (b :: l) a ce); auto. apply Ha.
Qed.

Lemma merge_gap0_exact l : Forall is_bounded l -> in_order l ->
  exists r, merge_timeframes l 0 = Ok r /\ forall i, covers r i <-> covers l i.
Proof.
  intros Hb Ho. destruct (merge_spec 0 l ltac:(lia) Hb Ho) as (r & Er & _ & _ & _ & H1 & H2 & _).
  exists r. split; auto. intros i. split; auto. intros Hi. apply H2 in Hi as [Hi|Hi]; auto.
  destruct Hi as (x & y & ex & sy & _ & _ & _ & H & H'). lia.
Qed.

(** ** C06 *)

Lemma dict_roundtrip t : ordered t -> exists t',
  from_dict (to_dict t) = Ok t' /\ tf_start t' = tf_start t /\ tf_end t' = tf_end t /\
  (tf_empty t = false -> tf_eq t' t = true /\ forall i, inTF t' i <-> inTF t i) /\
  (tf_empty t = true -> exists i, inTF t' i /\ ~ inTF t i).
Proof.
  intros Ho. unfold from_dict, to_dict; simpl.
  rewrite mk_ok by exact Ho. eexists. split; [reflexivity|]. split; [reflexivity|]. split; [reflexivity|].
  split.
  - intros He. split.
    + change (oeqb (tf_start t) (tf_start t) && oeqb (tf_end t) (tf_end t)
              && Bool.eqb (tf_empty t) false = true). rewrite He.
      assert (R : forall o, oeqb o o = true) by (intros [x|]; simpl; auto; apply Z.eqb_refl).
      rewrite (R (tf_start t)), (R (tf_end t)). reflexivity.
    + intros i. unfold inTF, tf_start at 1, tf_end at 1; simpl. rewrite He. tauto.
  - intros He. destruct (half_open_nonempty _ _ Ho) as (i & H1 & H2). exists i. split.
    + split; [reflexivity|]. split; auto.
    + intros [H _]. congruence.
Qed.

(** ** C07, C08 *)

Lemma group_isect_row_spec t h : exists r, group_isect_row t h = Ok r /\
  (forall c, In c r <-> exists o, In o h /\ intersection t o = Ok c /\ tf_empty c = false).
Proof.
  induction h as [|o h IH]; simpl.
  - exists []. split; auto. intros c; split; [intros []|intros (o & [] & _)].
  - destruct IH as (r & Er & Hr). destruct (intersection_spec t o) as (c0 & Ec & _).
    rewrite Ec, Er. simpl. eexists; split; [reflexivity|]. intros c.
    destruct (tf_empty c0) eqn:E.
    + rewrite Hr. split.
      * intros (o' & Ho & Hx). exists o'; auto.
      * intros (o' & [<-|Ho] & Hx & Hy); [congruence|]. exists o'; auto.
    + simpl. rewrite Hr. split.
      * intros [<-|(o' & Ho & Hx)]; [exists o; auto|exists o'; auto].
      * intros (o' & [<-|Ho] & Hx & Hy); [left; congruence|right; exists o'; auto].
Qed.

Lemma group_intersection_spec g h : exists r, group_intersection g h = Ok r /\
  (forall c, In c r <-> exists t o, In t g /\ In o h /\ intersection t o = Ok c /\ tf_empty c = false).
Proof.
  induction g as [|t g IH]; simpl.
  - exists []. split; auto. intros c; split; [intros []|intros (t & o & [] & _)].
  - destruct IH as (r & Er & Hr). destruct (group_isect_row_spec t h) as (r1 & Er1 & Hr1).
    rewrite Er, Er1. simpl. eexists; split; [reflexivity|]. intros c. rewrite in_app_iff, Hr, Hr1. split.
    + intros [(o & H)|(t' & o & H1 & H2)]; [exists t, o; tauto|exists t', o; tauto].
    + intros (t' & o & [<-|H1] & H2); [left; exists o; tauto|right; exists t', o; tauto].
Qed.

Lemma group_intersection_covers g h : exists r, group_intersection g h = Ok r /\
  forall i, covers r i <-> covers g i /\ covers h i.
Proof.
  destruct (group_intersection_spec g h) as (r & Er & Hr). exists r. split; auto.
  intros i. split.
  - intros (c & Hc & Hi). apply Hr in Hc as (t & o & Ht & Ho & Hx & _).
    destruct (intersection_spec t o) as (c' & Ec & Hm & _).
    rewrite Ec in Hx; inversion Hx; subst. apply Hm in Hi as [H1 H2].
    split; [exists t|exists o]; auto.
  - intros [(t & Ht & Hi) (o & Ho & Hi')].
    destruct (intersection_spec t o) as (c & Ec & Hm & _).
    assert (Hci : inTF c i) by (apply Hm; auto).
    exists c. split; auto. apply Hr. exists t, o. repeat split; auto. apply Hci.
Qed.

Definition disjoint (a b : tf) : Prop := forall i, inTF a i -> inTF b i -> False.

Lemma no_overlap_cons t l : no_overlap (t :: l) <-> Forall (disjoint t) l /\ no_overlap l.
Proof.
  split.
  - intros H. split.
    + apply Forall_forall. intros x Hx i H1 H2. apply In_nth_error in Hx as [k Hk].
      pose proof (H 0%nat (S k) t x i eq_refl Hk H1 H2). lia.
    + intros j k a b i Hj Hk Ha Hb. pose proof (H (S j) (S k) a b i Hj Hk Ha Hb). lia.
  - intros [Hd Hn] j k a b i Hj Hk Ha Hb. rewrite Forall_forall in Hd.
    destruct j as [|j]; destruct k as [|k]; simpl in Hj, Hk; auto.
    + inversion Hj; subst. exfalso. apply (Hd b (nth_error_In _ _ Hk) i); auto.
    + inversion Hk; subst. exfalso. apply (Hd a (nth_error_In _ _ Hj) i); auto.
    + f_equal. eapply Hn; eauto.
Qed.

Lemma no_overlap_app l1 l2 : no_overlap (l1 ++ l2) <->
  no_overlap l1 /\ no_overlap l2 /\ (forall a b, In a l1 -> In b l2 -> disjoint a b).
Proof.
  induction l1 as [|t l1 IH]; simpl.
  - split.
    + intros H. split; [intros [|j]; discriminate|]. split; auto. intros a b [].
    + tauto.
  - rewrite !no_overlap_cons, IH, Forall_app, !Forall_forall. split.
    + intros [[H1 H2] (H3 & H4 & H5)]. repeat split; auto.
      intros a b [<-|Ha] Hb; auto.
    + intros [[H1 H2] (H3 & H4)]. repeat split; auto.
Qed.

Lemma disjoint_sub a b a' b' : disjoint a b ->
  (forall i, inTF a' i -> inTF a i) -> (forall i, inTF b' i -> inTF b i) -> disjoint a' b'.
Proof. intros H Ha Hb i H1 H2. apply (H i); auto. Qed.

Lemma group_isect_row_no_overlap t : forall h r, no_overlap h -> group_isect_row t h = Ok r -> no_overlap r.
Proof.
  induction h as [|o h IH]; simpl; intros r Hn H.
  - inversion H; subst. intros [|j]; discriminate.
  - apply no_overlap_cons in Hn as [Hd Hn].
    destruct (intersection_spec t o) as (c & Ec & Hm & _). rewrite Ec in H. simpl in H.
    destruct (group_isect_row_spec t h) as (r' & Er' & Hr'). rewrite Er' in H. simpl in H.
    inversion H; subst. specialize (IH r' Hn Er').
    destruct (tf_empty c); auto. apply no_overlap_cons. split; auto.
    apply Forall_forall. intros x Hx. apply Hr' in Hx as (o' & Ho & Hx & _).
    destruct (intersection_spec t o') as (c' & Ec' & Hm' & _). rewrite Ec' in Hx; inversion Hx; subst.
    rewrite Forall_forall in Hd. apply (disjoint_sub o o'); auto; intros i Hi; [apply Hm in Hi|apply Hm' in Hi]; tauto.
Qed.

Lemma group_intersection_no_overlap h : no_overlap h -> forall g r,
  no_overlap g -> group_intersection g h = Ok r -> no_overlap r.
Proof.
  intros Hh. induction g as [|t g IH]; simpl; intros r Hn H.
  - inversion H; subst. intros [|j]; discriminate.
  - apply no_overlap_cons in Hn as [Hd Hn].
    destruct (group_isect_row_spec t h) as (r1 & Er1 & Hr1).
    destruct (group_intersection_spec g h) as (r2 & Er2 & Hr2).
    rewrite Er1, Er2 in H. simpl in H. inversion H; subst.
    apply no_overlap_app. split; [exact (group_isect_row_no_overlap t h r1 Hh Er1)|]. split; [auto|].
    intros a b Ha Hb. apply Hr1 in Ha as (o & Ho & Hx & _). apply Hr2 in Hb as (t' & o' & Ht' & Ho' & Hx' & _).
    destruct (intersection_spec t o) as (c & Ec & Hm & _). rewrite Ec in Hx; inversion Hx; subst.
    destruct (intersection_spec t' o') as (c' & Ec' & Hm' & _). rewrite Ec' in Hx'; inversion Hx'; subst.
    rewrite Forall_forall in Hd. apply (disjoint_sub t t'); auto; intros i Hi; [apply Hm in Hi|apply Hm' in Hi]; tauto.
Qed.

(** Counting instants. *)

Lemma zrange_In n : forall lo i, In i (zrange lo n) <-> lo <= i < lo + Z.of_nat n.
Proof.
  induction n as [|n IH]; intros lo i; simpl; [lia|].
  rewrite IH. lia.
Qed.

Lemma count_interval n : forall lo s e, lo <= s -> s <= e -> e <= lo + Z.of_nat n ->
  Z.of_nat (length (filter (fun i => (s <=? i) && (i <? e)) (zrange lo n))) = e - s.
Proof.
  induction n as [|n IH]; intros lo s e H1 H2 H3; simpl.
  - lia.
  - destruct ((s <=? lo) && (lo <? e)) eqn:E; simpl.
    + assert (s = lo) by lia. subst s.
      rewrite Zpos_P_of_succ_nat.
      assert (Hx : filter (fun i => (lo <=? i) && (i <? e)) (zrange (lo + 1) n) =
              filter (fun i => (lo + 1 <=? i) && (i <? e)) (zrange (lo + 1) n)).
      { apply filter_ext_in. intros a Ha. apply zrange_In in Ha. lia. }
      rewrite Hx, IH by lia. lia.
    + destruct (Z.eq_dec s lo) as [->|Hn].
      * assert (e = lo) by lia. subst e.
        assert (Hx : filter (fun i => (lo <=? i) && (i <? lo)) (zrange (lo + 1) n) =
              filter (fun i => (lo + 1 <=? i) && (i <? lo + 1)) (zrange (lo + 1) n)).
        { apply filter_ext_in. intros a Ha. lia. }
        rewrite Hx, IH by lia. lia.
      * rewrite IH by lia. lia.
Qed.

Lemma filter_or_disjoint {A} (f g : A -> bool) l :
  (forall x, In x l -> f x = true -> g x = true -> False) ->
  length (filter (fun x => f x || g x) l) = (length (filter f l) + length (filter g l))%nat.
Proof.
  induction l as [|x l IH]; intros H; simpl; auto.
  assert (IH' := IH (fun y Hy => H y (or_intror Hy))).
  specialize (H x (or_introl eq_refl)).
  destruct (f x) eqn:Ef; destruct (g x) eqn:Eg; simpl; try lia.
Qed.

Lemma covers_existsb l i : existsb (fun t => inTFb t i) l = true <-> covers l i.
Proof.
  rewrite existsb_exists. unfold covers. split; intros (t & H1 & H2); exists t; split; auto; apply inTFb_spec; auto.
Qed.

Lemma uptime_from_shift g : forall acc,
  uptime_from acc g = match uptime_from 0 g with Ok x => Ok (acc + x) | Err e => Err e end.
Proof.
  induction g as [|t g IH]; intros acc; simpl; [f_equal; lia|].
  destruct (tf_timedelta t) as [d|]; auto.
  rewrite (IH (acc + d)), (IH d). destruct (uptime_from 0 g); auto. f_equal. lia.
Qed.

Lemma uptime_measure lo n g : Forall is_bounded g -> no_overlap g -> within g lo n ->
  uptime g = Ok (measure g lo n).
Proof.
  unfold uptime, measure. induction g as [|t g IH]; intros Hb Hn Hw; simpl.
  - f_equal. induction (zrange lo n); simpl; auto.
  - inversion Hb as [|? ? (s & e & Ht) Hb2]; subst. apply no_overlap_cons in Hn as [Hd Hn].
    assert (Htd : tf_timedelta t = Some (e - s)).
    { unfold tf_timedelta. destruct Ht as (-> & -> & _). reflexivity. }
    rewrite Htd, uptime_from_shift, IH; auto.
    2:{ intros x i Hx. apply Hw. right; auto. }
    f_equal. rewrite filter_or_disjoint.
    + rewrite Nat2Z.inj_add. f_equal.
      assert (Hst : lo <= s /\ e <= lo + Z.of_nat n).
      { assert (s < e) by apply Ht.
        pose proof (Hw t s (or_introl eq_refl)) as W1. pose proof (Hw t (e-1) (or_introl eq_refl)) as W2.
        rewrite (inTF_bounded _ _ _ _ Ht) in W1. rewrite (inTF_bounded _ _ _ _ Ht) in W2. lia. }
      assert (s < e) by apply Ht.
      rewrite <- (count_interval n lo s e) by lia. f_equal. f_equal. apply filter_ext.
      intros i. destruct (inTFb t i) eqn:E.
      * apply inTFb_spec in E. apply (inTF_bounded _ _ _ _ Ht) in E. lia.
      * destruct ((s <=? i) && (i <? e)) eqn:E2; auto.
        assert (inTFb t i = true) by (apply inTFb_spec, (inTF_bounded _ _ _ _ Ht); lia). congruence.
    + intros i _ H1 H2. apply inTFb_spec in H1. apply covers_existsb in H2 as (u & Hu & Hi).
      rewrite Forall_forall in Hd. apply (Hd u Hu i); auto.
Qed.

Lemma within_exists g : Forall is_bounded g -> exists lo hi, lo <= hi /\
  forall t i, In t g -> inTF t i -> lo <= i < hi.
Proof.
  induction g as [|t g IH]; intros Hb.
  - exists 0, 0. split; [lia|]. intros t i [].
  - inversion Hb as [|? ? (s & e & Ht) Hb2]; subst. destruct (IH Hb2) as (lo & hi & Hle & H).
    exists (Z.min lo s), (Z.max hi e). split; [lia|]. intros u i [<-|Hu] Hi.
    + apply (inTF_bounded _ _ _ _ Ht) in Hi. lia.
    + specialize (H u i Hu Hi). lia.
Qed.

Lemma filter_length_le {A} (f g : A -> bool) l : (forall x, f x = true -> g x = true) ->
  (length (filter f l) <= length (filter g l))%nat.
Proof.
  intros H. induction l as [|x l IH]; simpl; auto.
  destruct (f x) eqn:Ef; [rewrite (H x Ef); simpl; lia|]. destruct (g x); simpl; lia.
Qed.

Lemma uptime_mono g h : Forall is_bounded g -> Forall is_bounded h ->
  no_overlap g -> no_overlap h -> (forall i, covers g i -> covers h i) ->
  exists u v, uptime g = Ok u /\ uptime h = Ok v /\ u <= v.
Proof.
  intros Bg Bh Ng Nh Hc.
  destruct (within_exists (g ++ h)) as (lo & hi & Hle & Hw); [apply Forall_app; auto|].
  assert (Wg : within g lo (Z.to_nat (hi - lo))).
  { intros t i Ht Hi. specialize (Hw t i (in_or_app _ _ _ (or_introl Ht)) Hi). lia. }
  assert (Wh : within h lo (Z.to_nat (hi - lo))).
  { intros t i Ht Hi. specialize (Hw t i (in_or_app _ _ _ (or_intror Ht)) Hi). lia. }
  rewrite (uptime_measure _ _ _ Bg Ng Wg), (uptime_measure _ _ _ Bh Nh Wh).
  do 2 eexists. split; [reflexivity|]. split; [reflexivity|]. unfold measure.
  apply inj_le, filter_length_le. intros i Hi. apply covers_existsb, Hc, covers_existsb, Hi.
Qed.

Lemma uptime_ext g h : Forall is_bounded g -> Forall is_bounded h ->
  no_overlap g -> no_overlap h -> (forall i, covers g i <-> covers h i) ->
  uptime g = uptime h.
Proof.
  intros Bg Bh Ng Nh Hc.
  assert (C1 : forall i, covers g i -> covers h i) by (intros i; apply Hc).
  assert (C2 : forall i, covers h i -> covers g i) by (intros i; apply Hc).
  destruct (uptime_mono g h Bg Bh Ng Nh C1) as (u & v & Eu & Ev & H1).
  destruct (uptime_mono h g Bh Bg Nh Ng C2) as (v' & u' & Ev' & Eu' & H2).
  rewrite Eu, Ev in *. inversion Ev'; inversion Eu'; subst. f_equal. lia.
Qed.

Lemma intersection_bounded a b c : is_bounded a -> intersection a b = Ok c -> tf_empty c = false -> is_bounded b -> is_bounded c.
Proof.
  intros (s & e & Ha) H He (s' & e' & Hb).
  destruct (intersection_cases a b) as [(Em & E)|[(Em & _ & E)|(Em & Hlt & E)]];
  rewrite E in H; inversion H; subst; try discriminate.
  destruct Ha as (A1 & A2 & _), Hb as (B1 & B2 & _).
  unfold isect_start, isect_end in *. rewrite A1, A2, B1, B2 in *.
  exists (Z.max s s'), (Z.min e e'). repeat split; auto.
Qed.

Lemma group_intersection_bounded g h r : Forall is_bounded g -> Forall is_bounded h ->
  group_intersection g h = Ok r -> Forall is_bounded r.
Proof.
  intros Hg Hh H. destruct (group_intersection_spec g h) as (r' & Er & Hr).
  rewrite Er in H; inversion H; subst. rewrite Forall_forall in *. intros c Hc.
  apply Hr in Hc as (t & o & Ht & Ho & Hx & He). eapply intersection_bounded; eauto.
Qed.

Lemma group_intersection_full g h : Forall is_bounded g -> Forall is_bounded h ->
  no_overlap g -> no_overlap h ->
  exists r u v w, group_intersection g h = Ok r /\ no_overlap r /\ Forall is_bounded r /\
    uptime r = Ok u /\ uptime g = Ok v /\ uptime h = Ok w /\ u <= v /\ u <= w.
Proof.
  intros Bg Bh Ng Nh. destruct (group_intersection_covers g h) as (r & Er & Hc).
  assert (Nr : no_overlap r) by exact (group_intersection_no_overlap h Nh g r Ng Er).
  assert (Br : Forall is_bounded r) by exact (group_intersection_bounded g h r Bg Bh Er).
  assert (C1 : forall i, covers r i -> covers g i) by (intros i Hi; apply Hc in Hi; tauto).
  assert (C2 : forall i, covers r i -> covers h i) by (intros i Hi; apply Hc in Hi; tauto).
  destruct (uptime_mono r g Br Bg Nr Ng C1) as (u & v & E1 & E2 & H1).
  destruct (uptime_mono r h Br Bh Nr Nh C2) as (u' & w & E3 & E4 & H2).
  rewrite E1 in E3; inversion E3; subst u'.
  exists r, u, v, w. repeat split; auto.
Qed.

Lemma remove_shorter_than_spec thr g : Forall is_bounded g ->
  exists r, remove_shorter_than g thr = Ok r /\
    r = filter (fun t => match tf_start t, tf_end t with
                         | Some s, Some e => thr <=? e - s | _, _ => false end) g.
Proof.
  induction g as [|t g IH]; intros Hb; simpl; [exists []; auto|].
  inversion Hb as [|? ? (s & e & Ht) Hb2]; subst. destruct (IH Hb2) as (r & Er & Hr).
  unfold tf_timedelta. destruct Ht as (-> & -> & _). rewrite Er. simpl.
  eexists; split; [reflexivity|]. rewrite Hr. rewrite Z.geb_leb. reflexivity.
Qed.

Lemma filter_filter {A} (f g : A -> bool) l : filter f (filter g l) = filter (fun x => g x && f x) l.
Proof.
  induction l as [|x l IH]; simpl; auto. destruct (g x); simpl; rewrite IH; auto.
Qed.

Lemma remove_shorter_twice s t g : Forall is_bounded g ->
  exists r, remove_shorter_than g s = Ok r /\
    remove_shorter_than r t = remove_shorter_than g (Z.max s t).
Proof.
  intros Hb. destruct (remove_shorter_than_spec s g Hb) as (r & Er & Hr).
  exists r. split; auto.
  assert (Hbr : Forall is_bounded r) by (subst r; apply Forall_forall; intros x Hx;
    apply filter_In in Hx as [Hx _]; rewrite Forall_forall in Hb; auto).
  destruct (remove_shorter_than_spec t r Hbr) as (r2 & Er2 & Hr2).
  destruct (remove_shorter_than_spec (Z.max s t) g Hb) as (r3 & Er3 & Hr3).
  rewrite Er2, Er3, Hr2, Hr3, Hr, filter_filter. f_equal. apply filter_ext.
  intros x. destruct (tf_start x); destruct (tf_end x); auto. lia.
Qed.

Lemma mk_outcome s e :
  (exists t, mk s e = Ok t /\ tf_start t = s /\ tf_end t = e /\ tf_empty t = false /\ tf_incl t = false
     /\ (forall a b, s = Some a -> e = Some b -> a < b))
  \/ (mk s e = Err ValueError /\ exists a b, s = Some a /\ e = Some b /\ b <= a).
Proof.
  destruct s as [a|]; destruct e as [b|].
  - destruct (Z_lt_le_dec a b).
    + left. rewrite mk_ok by (intros x y Hx Hy; inversion Hx; inversion Hy; subst; auto).
      eexists. split; [reflexivity|]. repeat split; auto.
      intros x y Hx Hy; inversion Hx; inversion Hy; subst; auto.
    + right. rewrite mk_err by lia. split; auto. exists a, b. auto.
  - left. rewrite mk_ok by (intros; discriminate). eexists. split; [reflexivity|]. repeat split; auto. discriminate.
  - left. rewrite mk_ok by (intros; discriminate). eexists. split; [reflexivity|]. repeat split; auto. discriminate.
  - left. rewrite mk_ok by (intros; discriminate). eexists. split; [reflexivity|]. repeat split; auto. discriminate.
Qed.

Lemma history_inverted : exists t history,
  mk (Some 10) (Some 20) = Ok t /\ ~ ordered (fold_left apply_edit history t).
Proof.
  eexists. exists [SetEnabled false; SetStart (Some 30); SetEnabled true].
  split; [reflexivity|]. intros H. specialize (H 30 20 eq_refl eq_refl). lia.
Qed.

Lemma closed_intersection_refuted : exists a b c d i,
  ordered a /\ ordered b /\ intersection a b = Ok c /\ intersection b a = Ok d /\
  inTFc c i /\ ~ inTFc a i /\ ~ inTFc d i.
Proof.
  exists (mkTF (Some 0) (Some 10) true false false), (mkTF (Some 5) (Some 10) true false true).
  do 2 eexists. exists 10. repeat split; try reflexivity.
  - intros s e H1 H2; inversion H1; inversion H2; lia.
  - intros s e H1 H2; inversion H1; inversion H2; lia.
  - intros s H; inversion H; lia.
  - intros e H; right; inversion H; auto.
  - intros (_ & _ & H). specialize (H 10 eq_refl). simpl in H. destruct H as [H|[H _]]; [lia|discriminate].
  - intros (_ & _ & H). specialize (H 10 eq_refl). simpl in H. destruct H as [H|[H _]]; [lia|discriminate].
Qed.

Lemma closed_intersection_touching : exists a b c i,
  ordered a /\ ordered b /\ intersection a b = Ok c /\
  inTFc a i /\ inTFc b i /\ ~ inTFc c i.
Proof.
  exists (mkTF (Some 0) (Some 10) true false true), (mkTF (Some 10) (Some 20) true false false).
  eexists. exists 10. repeat split; try reflexivity.
  1-2: intros s e H1 H2; inversion H1; inversion H2; lia.
  - intros s H; inversion H; lia.
  - intros e H; right; inversion H; auto.
  - intros s H; inversion H; lia.
  - intros e H; left; inversion H; lia.
  - intros [H _]; discriminate.
Qed.

Lemma split_unbounded : exists t, mk (Some 0) None = Ok t /\
  forall thr, split t thr = ([], Some AttributeError).
Proof. eexists. split; reflexivity. Qed.

Lemma split_include_end : exists t thr l, bounded t 0 10 /\
  split t thr = (l, None) /\ inTFc t 10 /\ forall p, In p l -> ~ inTFc p 10.
Proof.
  exists (mkTF (Some 0) (Some 10) true false true), 6. eexists. repeat split; try reflexivity.
  - intros s H; inversion H; lia.
  - intros e H; right; inversion H; auto.
  - simpl. intros p [<-|[<-|[]]] (_ & _ & H); specialize (H _ eq_refl); simpl in H;
    (destruct H as [H|[H _]]; [lia|discriminate]).
Qed.

Lemma merge_overlapping : exists l r u, Forall is_bounded l /\
  merge_timeframes l 0 = Ok r /\ uptime r = Ok u /\ measure r 0 20 < u.
Proof.
  exists [mkTF (Some 0) (Some 10) true false false; mkTF (Some 5) (Some 15) true false false].
  do 2 eexists. split; [repeat constructor; do 2 eexists; repeat split|].
  split; [reflexivity|]. split; reflexivity.
Qed.

Lemma dict_empty : exists a b c d,
  ordered a /\ ordered b /\ intersection a b = Ok c /\ tf_empty c = true /\
  from_dict (to_dict c) = Ok d /\ forall i, inTF d i.
Proof.
  exists (mkTF (Some 0) (Some 10) true false false), (mkTF (Some 15) (Some 20) true false false).
  do 2 eexists. split; [intros s e H1 H2; inversion H1; inversion H2; lia|].
  split; [intros s e H1 H2; inversion H1; inversion H2; lia|].
  split; [reflexivity|]. split; [reflexivity|]. split; [reflexivity|].
  intros i. repeat split; intros x Hx; inversion Hx.
Qed.

Lemma oeqb_eq a b : oeqb a b = true <-> a = b.
Proof.
  destruct a as [x|]; destruct b as [y|]; simpl; split; intros H; try discriminate; auto.
  - f_equal. lia.
  - inversion H. apply Z.eqb_refl.
Qed.

Lemma tf_eq_hash a b : tf_eq a b = true <-> tf_hash_key a = tf_hash_key b.
Proof.
  unfold tf_eq, tf_hash_key. rewrite !andb_true_iff, !oeqb_eq, eqb_true_iff. split.
  - intros [[-> ->] ->]. reflexivity.
  - intros H. inversion H. auto.
Qed.

Lemma tf_eq_instants a b : tf_eq a b = true -> forall i, inTF a i <-> inTF b i.
Proof.
  intros H i. apply tf_eq_hash in H. unfold tf_hash_key in H. inversion H as [[H1 H2 H3]].
  unfold inTF. rewrite H1, H2, H3. tauto.
Qed.

Lemma tf_lt_order a b c :
  tf_start a <> None ->
  tf_lt a a = Ok false /\
  (tf_lt a b = Ok true -> tf_lt b c = Ok true -> tf_lt a c = Ok true) /\
  (tf_lt a b = Ok true -> tf_lt b a = Ok false) /\
  (tf_lt a b = Ok false -> tf_lt b a = Ok false -> tf_start a = tf_start b).
Proof.
  unfold tf_lt. destruct (tf_start a) as [x|]; [|congruence]. intros _.
  assert (E : forall p q : bool, Ok p = Ok q <-> p = q) by (intros p q; split; congruence).
  destruct (tf_start b) as [y|]; destruct (tf_start c) as [z|]; rewrite ?E;
  repeat split; intros; rewrite ?E in *; try congruence; try lia.
  all: f_equal; lia.
Qed.

Lemma tf_lt_fails : exists a b, mk None (Some 1) = Ok a /\ mk None (Some 2) = Ok b /\
  tf_lt a b = Err TypeError.
Proof. do 2 eexists. repeat split; reflexivity. Qed.
