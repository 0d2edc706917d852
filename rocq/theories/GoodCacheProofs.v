(** Lemmas about good sections answered with the cache. *)
From Coq Require Import Sorted Permutation.
From Verif Require Import Base TimeFrameModel TimeFrameSpec TimeFrameProofs SortLib StoreModel ResultsModel ResultsSpec ResultsProofs
  GoodSectionsModel GoodCacheModel GoodCacheSpec.
From Verif Require CacheModel.
Import List. Open Scope Z_scope.

(** ** The keys of the cached table *)

Definition lex (a b : Z * Z) : Prop := fst a < fst b \/ (fst a = fst b /\ snd a <= snd b).

Lemma insert_in {A} (key : A -> option Z) x l y : In y (insert_by key x l) <-> y = x \/ In y l.
Proof.
  split; intros H.
  - apply (Permutation_in _ (insert_by_perm key x l)) in H. destruct H as [H|H]; [left; congruence|right; exact H].
  - apply (Permutation_in _ (Permutation_sym (insert_by_perm key x l))). destruct H as [->|H]; [left; reflexivity|right; exact H].
Qed.
Lemma sort_in {A} (key : A -> option Z) l y : In y (sort_by key l) <-> In y l.
Proof.
  split; apply Permutation_in; [|apply Permutation_sym]; apply sort_by_perm.
Qed.

Lemma lex_insert x : forall l, StronglySorted lex l -> Forall (fun y => snd x <= snd y) l ->
  StronglySorted lex (insert_by (fun k => Some (fst k)) x l).
Proof.
  induction l as [|y r IH]; intros H F; cbn [insert_by]; [constructor; constructor|].
  apply StronglySorted_inv in H. destruct H as [H1 H2]. apply Forall_cons_iff in F. destruct F as [F1 F2].
  cbn [key_leb]. destruct (Z.leb_spec (fst x) (fst y)).
  - constructor; [constructor; assumption|]. constructor.
    + unfold lex. lia.
    + rewrite Forall_forall in *. intros z Z. specialize (H2 z Z). specialize (F2 z Z). unfold lex in *. lia.
  - constructor; [exact (IH H1 F2)|]. rewrite Forall_forall in *. intros z Z. apply insert_in in Z. destruct Z as [->|Z]; [|exact (H2 z Z)].
    left. exact H.
Qed.

Lemma lex_sort : forall l, StronglySorted (fun a b => snd a <= snd b) l -> StronglySorted lex (sort_by (fun k => Some (fst k)) l).
Proof.
  induction l as [|x r IH]; intros H; cbn [sort_by]; [constructor|]. apply StronglySorted_inv in H. destruct H as [H1 H2].
  apply lex_insert; [exact (IH H1)|]. rewrite Forall_forall in *. intros y Y. apply sort_in in Y. exact (H2 y Y).
Qed.

Lemma lex_sorted l : StronglySorted lex (sort_by (fun k => Some (fst k)) (sort_by (fun k => Some (snd k)) l)).
Proof.
  apply lex_sort. pose proof (sort_by_sorted (fun k : Z * Z => Some (snd k)) l) as S.
  induction S as [|x r S IH F]; [constructor|]. constructor; [exact IH|]. revert F. apply Forall_impl. intros y. unfold kle. cbn. lia.
Qed.

Lemma dedup_in : forall l k, In k (dedup_keys l) <-> In k l.
Proof.
  induction l as [|a [|b r] IH]; intros k; [reflexivity|reflexivity|].
  cbn [dedup_keys]. destruct ((fst a =? fst b) && (snd a =? snd b)) eqn:E.
  - apply andb_true_iff in E. destruct E as [E1 E2]. apply Z.eqb_eq in E1, E2. assert (a = b) by (destruct a, b; cbn in *; congruence). subst b.
    etransitivity; [apply IH|]. split; [right; assumption|intros [<-|H]; [left; reflexivity|exact H]].
  - change (dedup_keys (b :: r)) with (dedup_keys (b :: r)) in *. split.
    + intros [<-|H]; [left; reflexivity|]. right. apply IH. exact H.
    + intros [<-|H]; [left; reflexivity|]. right. apply IH. exact H.
Qed.

Lemma dedup_nodup : forall l, StronglySorted lex l -> NoDup (dedup_keys l).
Proof.
  induction l as [|a [|b r] IH]; intros H; [constructor|constructor; [intros []|constructor]|].
  apply StronglySorted_inv in H. destruct H as [H1 H2]. specialize (IH H1).
  cbn [dedup_keys]. destruct ((fst a =? fst b) && (snd a =? snd b)) eqn:E; [exact IH|].
  constructor; [|exact IH]. change (~ In a (dedup_keys (b :: r))). rewrite dedup_in. intros I.
  assert (L : lex b a). { destruct I as [->|I]; [unfold lex; lia|]. apply StronglySorted_inv in H1. destruct H1 as [_ H1]. rewrite Forall_forall in H1. exact (H1 a I). }
  rewrite Forall_forall in H2. specialize (H2 b (or_introl eq_refl)). unfold lex in *. lia.
Qed.

Lemma keys_nodup cache : NoDup (cached_keys cache).
Proof. apply dedup_nodup, lex_sorted. Qed.
Lemma keys_in cache a b : In (a, b) (cached_keys cache) <-> exists c, In c cache /\ gc_start c = Some a /\ gc_end c = Some b.
Proof.
  unfold cached_keys. rewrite dedup_in, sort_in, sort_in, in_concat. split.
  - intros (l & L & I). apply in_map_iff in L. destruct L as (c & <- & C). exists c. split; [exact C|].
    destruct (gc_start c), (gc_end c); cbn in I; try contradiction. destruct I as [[= -> ->]|[]]. auto.
  - intros (c & C & E1 & E2). eexists. split; [apply in_map; exact C|]. cbv beta. rewrite E1, E2. left. reflexivity.
Qed.

(** ** Import of one section *)

Lemma oeqb_eq a b : oeqb a b = true <-> a = b.
Proof. destruct a, b; cbn; try rewrite Z.eqb_eq; split; congruence. Qed.

Lemma group_nil cache k : cached_group cache k = [] -> ~ In k (cached_keys cache).
Proof.
  intros G I. destruct k as [a b]. apply keys_in in I. destruct I as (c & C & E1 & E2).
  assert (X : In c (cached_group cache (a, b))). { apply filter_In. split; [exact C|]. cbn. rewrite E1, E2, !(proj2 (oeqb_eq _ _) eq_refl). reflexivity. }
  rewrite G in X. exact X.
Qed.
Lemma group_some cache k : cached_group cache k <> [] -> In k (cached_keys cache).
Proof.
  intros G. destruct k as [a b]. destruct (cached_group cache (a, b)) as [|c l] eqn:E; [congruence|].
  assert (X : In c (cached_group cache (a, b))) by (rewrite E; left; reflexivity). apply filter_In in X. destruct X as [C X].
  apply andb_true_iff in X. destruct X as [X Y]. apply oeqb_eq in X, Y. apply keys_in. exists c. auto.
Qed.

Definition key_of (s : tf) (k : Z * Z) : Prop := tf_start s = Some (fst k) /\ tf_end s = Some (snd k).

Lemma import_other cache s : tf_empty s = false -> forall keys data, Forall (fun k => fst k < snd k) keys -> (forall k, In k keys -> ~ key_of s k) ->
  gs_import_keys cache [s] keys data = Ok data.
Proof.
  intros Hs. induction keys as [|k r IH]; intros data O N; [reflexivity|]. apply Forall_cons_iff in O. destruct O as [O1 O2].
  cbn [gs_import_keys]. rewrite mk_ok by (intros a b [= <-] [= <-]; exact O1). cbn [bind existsb].
  assert (E : tf_eq (mkTF (Some (fst k)) (Some (snd k)) true false false) s = false).
  { apply not_true_iff_false. unfold tf_eq. rewrite !andb_true_iff. intros [[E1 E2] _]. apply oeqb_eq in E1, E2. apply (N k (or_introl eq_refl)). split; assumption. }
  rewrite E. cbn [orb]. apply IH; [exact O2|]. intros k' I. apply N. right. exact I.
Qed.

Lemma import_one cache s k v : tf_empty s = false -> key_of s k ->
  mapM (fun c => mk (gc_sec_start c) (gc_sec_end c)) (cached_group cache k) = Ok v ->
  forall keys, NoDup keys -> Forall (fun k => fst k < snd k) keys -> In k keys ->
  gs_import_keys cache [s] keys [] = Ok [mkRow (Some (fst k)) (Some (snd k)) v].
Proof.
  intros Hs K M. induction keys as [|x r IH]; intros N O I; [destruct I|]. apply Forall_cons_iff in O. destruct O as [O1 O2].
  apply NoDup_cons_iff in N. destruct N as [N1 N2].
  assert (D : key_of s x -> x = k). { intros [A B]. destruct K as [C E]. destruct x, k; cbn in *. congruence. }
  cbn [gs_import_keys]. rewrite mk_ok by (intros a b [= <-] [= <-]; exact O1). cbn [bind existsb].
  destruct (tf_eq (mkTF (Some (fst x)) (Some (snd x)) true false false) s) eqn:E; cbn [orb].
  - unfold tf_eq in E. rewrite !andb_true_iff in E. destruct E as [[E1 E2] _]. apply oeqb_eq in E1, E2.
    assert (x = k) by (apply D; split; assumption). subst x. rewrite M. cbn [bind].
    unfold results_append. cbn [append_check bind app tf_start tf_end tf_enabled tf_start_ tf_end_].
    replace (has_dup [mkRow (Some (fst k)) (Some (snd k)) v]) with false by reflexivity. cbn [sort_by insert_by bind].
    apply import_other; [exact Hs|exact O2|]. intros k' I' K'. assert (k' = k). { destruct K' as [A B], K as [C F]. destruct k', k; cbn in *. congruence. } subst k'. exact (N1 I').
  - apply IH; [exact N2|exact O2|]. destruct I as [->|I]; [|exact I]. exfalso. destruct K as [A B].
    unfold tf_eq in E. cbn [tf_start tf_end tf_enabled tf_start_ tf_end_ tf_empty] in E. rewrite A, B, Hs in E. cbn in E. rewrite !Z.eqb_refl in E. discriminate.
Qed.
