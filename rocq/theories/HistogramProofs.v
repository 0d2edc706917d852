From Verif Require Import Base HistogramModel.
From Coq Require Import QArith Qround Lqa.
Open Scope nat_scope.

Lemma counts_app es a b : exists r, add_counts (counts es a) (counts es b) = Ok r /\ r = counts es (a ++ b).
Proof.
  induction es as [|x es IH]; [exists []; split; reflexivity|]. destruct es as [|y rest]; [exists []; split; reflexivity|].
  destruct IH as (r & E & Er). cbn [counts] in *. eexists. split; [cbn [add_counts]; rewrite E; cbn [bind]; reflexivity|].
  rewrite Er. rewrite filter_app, app_length. reflexivity.
Qed.

Lemma fill_edges es r : fill_bins (Edges es) r = Ok (Edges es).
Proof. reflexivity. Qed.

Lemma loop_edges es : nondecreasing es = true -> forall chunks seen range,
  histogram_loop chunks (Edges es) range (Some (counts es seen)) = Ok (Some (counts es (seen ++ concat chunks)), Edges es).
Proof.
  intros HE. induction chunks as [|c chunks IH]; intros seen range; cbn [histogram_loop concat].
  - rewrite app_nil_r. reflexivity.
  - cbn [fill_bins bind]. unfold np_histogram. rewrite HE. cbn [bind]. destruct (counts_app es seen c) as (r & E & ->). rewrite E. cbn [bind].
    rewrite IH. rewrite app_assoc. reflexivity.
Qed.

Lemma nondec_seq lo d : (0 <= d)%Q -> forall k n, nondecreasing (map (fun i => (lo + inject_Z (Z.of_nat i) * d)%Q) (seq n k)) = true.
Proof.
  intros Hd. induction k as [|k IH]; intros n; [reflexivity|]. destruct k as [|k]; [reflexivity|].
  specialize (IH (S n)). cbn [seq map] in *. cbn [nondecreasing] in *. rewrite IH, andb_true_r. apply Qle_bool_iff.
  rewrite !Nat2Z.inj_succ. unfold Z.succ. rewrite inject_Z_plus. change (inject_Z 1) with 1%Q. lra.
Qed.

Lemma linspace_nondecreasing lo hi n : 0 < n -> (lo <= hi)%Q -> nondecreasing (linspace lo hi n) = true.
Proof.
  intros Hn H. unfold linspace. apply nondec_seq. unfold Qdiv. apply Qmult_le_0_compat; [lra|]. apply Qinv_le_0_compat.
  unfold Qle, inject_Z. cbn. lia.
Qed.

(** Whatever the arguments, the first chunk fixes non-decreasing edges. *)
Lemma np_histogram_edges c b l h hist es : np_histogram c b l h = Ok (hist, es) -> nondecreasing es = true /\ hist = counts es c.
Proof.
  unfold np_histogram. destruct b as [|n|es'].
  - destruct l, h; discriminate.
  - destruct l as [l|], h as [h|]; try discriminate. destruct (n <? 1)%Z eqn:En; [discriminate|]. destruct (Qle_bool l h) eqn:El; cbn [negb]; [|discriminate].
    apply Qle_bool_iff in El. destruct (Qeq_bool l h) eqn:Eq; intros E; injection E as <- <-; split; try reflexivity; apply linspace_nondecreasing; try lia; lra.
  - destruct (nondecreasing es') eqn:E; [|destruct l, h; discriminate]. intros H. assert (H' : Ok (counts es' c, es') = Ok (hist, es)) by (destruct l, h; exact H).
    injection H' as <- <-. auto.
Qed.

(** ** Result *)

Lemma hist_spec chunks bins range out b : histogram_from_generator chunks bins range = Ok (out, b) ->
  match chunks with
  | [] => out = None /\ b = bins
  | c :: _ => exists es, b = Edges es /\ nondecreasing es = true /\ out = Some (counts es (concat chunks)) /\
      exists b', fill_bins bins (fill_range range c) = Ok b' /\ exists hist, np_histogram c b' (fst (fill_range range c)) (snd (fill_range range c)) = Ok (hist, es)
  end.
Proof.
  unfold histogram_from_generator. destruct chunks as [|c chunks]; [intros E; injection E as <- <-; auto|]. cbn [histogram_loop].
  destruct (fill_bins bins (fill_range range c)) as [b'|e] eqn:EB; cbn [bind]; [|discriminate].
  destruct (np_histogram c b' _ _) as [[hist es]|e] eqn:EH; cbn [bind]; [|discriminate].
  destruct (np_histogram_edges _ _ _ _ _ _ EH) as [HE ->]. rewrite loop_edges by exact HE. intros E. injection E as <- <-.
  exists es. split; [reflexivity|]. split; [exact HE|]. split; [reflexivity|]. exists b'. split; [reflexivity|]. eauto.
Qed.

(** The call fails only on the first chunk. *)
Lemma hist_fails c chunks bins range e : histogram_from_generator (c :: chunks) bins range = Err e ->
  histogram_from_generator [c] bins range = Err e.
Proof.
  unfold histogram_from_generator. cbn [histogram_loop].
  destruct (fill_bins bins (fill_range range c)) as [b'|e'] eqn:EB; cbn [bind]; [|auto].
  destruct (np_histogram c b' _ _) as [[hist es]|e'] eqn:EH; cbn [bind]; [|auto].
  destruct (np_histogram_edges _ _ _ _ _ _ EH) as [HE ->]. rewrite loop_edges by exact HE. discriminate.
Qed.

(** ** What the counts are *)

(** Values between the first and the last edge. *)
Definition within (lo hi : Q) (v : option Q) : bool := match v with Some x => Qle_bool lo x && Qle_bool x hi | None => false end.

Lemma bin_split a b hi v : (a <= b)%Q -> (b <= hi)%Q ->
  (if in_bin a b false v then 1 else 0) + (if within b hi v then 1 else 0) = (if within a hi v then 1 else 0).
Proof.
  intros H1 H2. destruct v as [x|]; [|reflexivity]. cbn.
  destruct (Qle_bool a x) eqn:E1, (Qle_bool b x) eqn:E2, (Qle_bool x hi) eqn:E3; cbn; try reflexivity; exfalso;
  repeat match goal with
  | H : Qle_bool _ _ = true |- _ => apply Qle_bool_iff in H
  | H : Qle_bool ?p ?q = false |- _ => assert (~ (p <= q)%Q) by (intros K; apply Qle_bool_iff in K; congruence); clear H
  end; lra.
Qed.

Lemma filter_count {A} (f g h : A -> bool) l : (forall x, (if f x then 1 else 0) + (if g x then 1 else 0) = (if h x then 1 else 0)) ->
  length (filter f l) + length (filter g l) = length (filter h l).
Proof.
  intros H. induction l as [|x l IH]; [reflexivity|]. cbn [filter]. specialize (H x). destruct (f x), (g x), (h x); cbn [length] in *; lia.
Qed.

Lemma last_indep {A} (es : list A) x y : es <> [] -> last es x = last es y.
Proof.
  revert x y. induction es as [|p [|q r] IH]; intros x y Hne; [contradiction|reflexivity|]. change (last (q :: r) x = last (q :: r) y). apply IH. discriminate.
Qed.

Lemma nondec_last es a : nondecreasing (a :: es) = true -> (a <= last es a)%Q.
Proof.
  revert a. induction es as [|b es IH]; intros a H; [apply Qle_refl|]. cbn [nondecreasing] in H. apply andb_true_iff in H. destruct H as [H1 H2].
  apply Qle_bool_iff in H1. specialize (IH b H2). eapply Qle_trans; [exact H1|]. eapply Qle_trans; [exact IH|].
  destruct es as [|c es]; [apply Qle_refl|]. change (last (b :: c :: es) a) with (last (c :: es) a). rewrite (last_indep (c :: es) b a) by discriminate. apply Qle_refl.
Qed.

Lemma counts_total es a b c : nondecreasing (a :: b :: es) = true -> fold_right plus 0 (counts (a :: b :: es) c) = length (filter (within a (last (b :: es) b)) c).
Proof.
  revert a b. induction es as [|d es IH]; intros a b H.
  - cbn [counts fold_right last]. rewrite Nat.add_0_r. f_equal. 
  - cbn [nondecreasing] in H. apply andb_true_iff in H. destruct H as [H1 H2]. apply Qle_bool_iff in H1.
    specialize (IH b d H2). change (counts (a :: b :: d :: es) c) with (length (filter (in_bin a b false) c) :: counts (b :: d :: es) c). cbn [fold_right].
    rewrite IH. clear IH. change (last (b :: d :: es) b) with (last (d :: es) b). rewrite (last_indep (d :: es) b d) by discriminate.
    apply filter_count. intros v. apply bin_split; [exact H1|]. pose proof (nondec_last (d :: es) b H2) as K.
    rewrite (last_indep (d :: es) b d) in K by discriminate. exact K.
Qed.

Lemma counts_nth es c i a b : nth_error es i = Some a -> nth_error es (S i) = Some b ->
  nth_error (counts es c) i = Some (length (filter (in_bin a b (S (S i) =? length es)) c)).
Proof.
  revert i. induction es as [|x es IH]; intros i Ha Hb; [destruct i; discriminate|]. destruct es as [|y rest]; [destruct i as [|[|i]]; discriminate|].
  destruct i as [|i].
  - cbn in Ha, Hb. injection Ha as <-. injection Hb as <-. cbn [counts nth_error]. destruct rest; reflexivity.
  - cbn [nth_error] in Ha, Hb. change (nth_error (counts (x :: y :: rest) c) (S i)) with (nth_error (counts (y :: rest) c) i).
    rewrite (IH i Ha Hb). reflexivity.
Qed.

Lemma counts_length es c : length (counts es c) = length es - 1.
Proof.
  induction es as [|x es IH]; [reflexivity|]. destruct es as [|y rest]; [reflexivity|]. change (length (counts (x :: y :: rest) c)) with (S (length (counts (y :: rest) c))). rewrite IH. cbn. lia.
Qed.

(** ** In terms of the specification *)
From Verif Require Import HistogramSpec.

Lemma number_filter (f : option Q -> bool) (P : Q -> Prop) c : f None = false -> (forall x, f (Some x) = true <-> P x) -> number_of P c (length (filter f c)).
Proof.
  intros HN HS. induction c as [|[x|] c IH]; cbn [filter]; [constructor| |rewrite HN; constructor; exact IH].
  destruct (f (Some x)) eqn:E; cbn [length]; constructor; try exact IH; [apply HS; exact E|]. intros K. apply HS in K. congruence.
Qed.

Lemma Qle_bool_false a b : Qle_bool a b = false <-> (b < a)%Q.
Proof.
  split.
  - intros E. apply Qnot_le_lt. intros K. apply Qle_bool_iff in K. congruence.
  - intros H. destruct (Qle_bool a b) eqn:E; [|reflexivity]. apply Qle_bool_iff in E. lra.
Qed.

Lemma counts_is_histogram es c : nondecreasing es = true -> is_histogram es c (counts es c).
Proof.
  intros _. split; [apply counts_length|]. intros i a b Ha Hb. eexists. split; [exact (counts_nth es c i a b Ha Hb)|].
  apply number_filter; [reflexivity|]. intros x. unfold in_bin. rewrite andb_true_iff, Qle_bool_iff. destruct (S (S i) =? length es) eqn:E.
  - apply Nat.eqb_eq in E. rewrite Qle_bool_iff. split; [intros [H1 H2]; split; [exact H1|]; right; auto|]. intros [H1 [H2|[_ H2]]]; split; try assumption. lra.
  - apply Nat.eqb_neq in E. rewrite negb_true_iff, Qle_bool_false. split; [intros [H1 H2]; auto|]. intros [H1 [H2|[H2 _]]]; split; try assumption. contradiction.
Qed.

Lemma nondec_ordered es : nondecreasing es = true -> ordered es.
Proof.
  unfold ordered. induction es as [|x es IH]; intros H i j a b Hij Ha Hb; [destruct i; discriminate|].
  assert (T : nondecreasing es = true) by (destruct es; [reflexivity|]; cbn [nondecreasing] in H; apply andb_true_iff in H; tauto).
  destruct j as [|j]; [assert (i = 0) by lia; subst i; cbn in *; assert (a = b) by congruence; subst; apply Qle_refl|].
  destruct i as [|i]; [|apply (IH T i j); [lia|exact Ha|exact Hb]].
  cbn in Ha, Hb. injection Ha as <-. destruct es as [|y es]; [destruct j; discriminate|].
  cbn [nondecreasing] in H. apply andb_true_iff in H. destruct H as [H _]. apply Qle_bool_iff in H. eapply Qle_trans; [exact H|]. apply (IH T 0 j); [lia|reflexivity|exact Hb].
Qed.

Lemma ordered_nondec es : ordered es -> nondecreasing es = true.
Proof.
  induction es as [|x es IH]; intros H; [reflexivity|]. destruct es as [|y es]; [reflexivity|]. cbn [nondecreasing]. apply andb_true_iff. split.
  - apply Qle_bool_iff. apply (H 0 1); [lia|reflexivity|reflexivity].
  - apply IH. intros i j a b Hij Ha Hb. apply (H (S i) (S j)); [lia|exact Ha|exact Hb].
Qed.

Lemma hist_additive chunks bins range h es : histogram_from_generator chunks bins range = Ok (Some h, Edges es) ->
  is_histogram es (concat chunks) h /\ ordered es.
Proof.
  intros H. apply hist_spec in H. destruct chunks as [|c chunks]; [destruct H; discriminate|]. destruct H as (es' & E & HE & Eo & _).
  injection E as <-. assert (Eh : h = counts es (concat (c :: chunks))) by congruence. rewrite Eh. split; [apply counts_is_histogram|apply nondec_ordered]; exact HE.
Qed.

Lemma hist_total chunks bins range h a b es : histogram_from_generator chunks bins range = Ok (Some h, Edges (a :: b :: es)) ->
  number_of (fun x => (a <= x)%Q /\ (x <= last (b :: es) b)%Q) (concat chunks) (fold_right plus 0 h).
Proof.
  intros H. apply hist_spec in H. destruct chunks as [|c chunks]; [destruct H; discriminate|]. destruct H as (es' & E & HE & Eo & _).
  injection E as <-. assert (Eh : h = counts (a :: b :: es) (concat (c :: chunks))) by congruence. rewrite Eh. rewrite counts_total by exact HE. apply number_filter; [reflexivity|]. intros x. unfold within. rewrite andb_true_iff, !Qle_bool_iff. tauto.
Qed.

Lemma hist_given_edges chunks es range : chunks <> [] -> ordered es ->
  histogram_from_generator chunks (Edges es) range = Ok (Some (counts es (concat chunks)), Edges es).
Proof.
  intros Hne Ho. apply ordered_nondec in Ho. destruct chunks as [|c chunks]; [contradiction|]. unfold histogram_from_generator. cbn [histogram_loop].
  rewrite fill_edges. cbn [bind]. unfold np_histogram. rewrite Ho. cbn [bind]. rewrite loop_edges by exact Ho. reflexivity.
Qed.

Lemma hist_given_range chunks n l h : chunks <> [] -> (0 < n)%Z -> (l < h)%Q ->
  histogram_from_generator chunks (NBins n) (Some (Some l, Some h)) =
  Ok (Some (counts (linspace l h (Z.to_nat n)) (concat chunks)), Edges (linspace l h (Z.to_nat n))).
Proof.
  intros Hne Hn Hlh. destruct chunks as [|c chunks]; [contradiction|]. unfold histogram_from_generator. cbn [histogram_loop fill_range fill_bins bind np_histogram fst snd].
  replace (n <? 1)%Z with false by lia. replace (Qle_bool l h) with true by (symmetry; apply Qle_bool_iff; lra).
  destruct (Qeq_bool l h) eqn:E; [apply Qeq_bool_iff in E; lra|]. cbn [negb bind].
  rewrite loop_edges; [reflexivity|]. apply linspace_nondecreasing; [lia|lra].
Qed.

Lemma linspace_nth l h n i : i <= n -> nth_error (linspace l h n) i = Some (l + inject_Z (Z.of_nat i) * ((h - l) / inject_Z (Z.of_nat n)))%Q.
Proof. intros H. unfold linspace. erewrite map_nth_error; [reflexivity|]. rewrite (nth_error_nth' _ 0) by (rewrite seq_length; lia). rewrite seq_nth by lia. reflexivity. Qed.

Lemma hist_chunking a b bins range : a <> [] -> b <> [] -> concat a = concat b ->
  (exists es, bins = Edges es /\ ordered es) \/ (exists n l h, bins = NBins n /\ range = Some (Some l, Some h) /\ (0 < n)%Z /\ (l < h)%Q) ->
  histogram_from_generator a bins range = histogram_from_generator b bins range.
Proof.
  intros Ha Hb E [(es & -> & Ho)|(n & l & h & -> & -> & Hn & Hlh)].
  - rewrite !hist_given_edges by assumption. rewrite E. reflexivity.
  - rewrite !hist_given_range by assumption. rewrite E. reflexivity.
Qed.

Lemma hist_equal_bins chunks n l h : chunks <> [] -> (0 < n)%Z -> (l < h)%Q ->
  exists out es, histogram_from_generator chunks (NBins n) (Some (Some l, Some h)) = Ok (Some out, Edges es) /\
    length es = S (Z.to_nat n) /\
    forall i, i <= Z.to_nat n -> exists e, nth_error es i = Some e /\ (e == l + inject_Z (Z.of_nat i) * ((h - l) / inject_Z n))%Q.
Proof.
  intros H1 H2 H3. exists (counts (linspace l h (Z.to_nat n)) (concat chunks)), (linspace l h (Z.to_nat n)). split; [apply hist_given_range; assumption|].
  split; [unfold linspace; rewrite map_length, seq_length; reflexivity|]. intros i Hi. rewrite linspace_nth by exact Hi. eexists. split; [reflexivity|].
  rewrite Z2Nat.id by lia. reflexivity.
Qed.
