From Coq Require Import Lia.
From Verif Require Import Base PrepModel PrepSpec PrepProofs PrepProofs2 PrepProofs3.
Import List. Open Scope nat_scope.

(** ** Enough steps *)
Section F.
Variable nds : list (option ref * nfun).
Definition minfuel (r : ref) (k : nat) : Prop := chain k nds r <> Err RuntimeError /\ forall j, j < k -> chain j nds r = Err RuntimeError.
Lemma minfuel_fun r k k' : minfuel r k -> minfuel r k' -> k = k'.
Proof.
  intros [A B] [A' B']. destruct (Nat.lt_trichotomy k k') as [L|[L|L]]; [|exact L|].
  - elim A. now apply B'.
  - elim A'. now apply B.
Qed.
Lemma minfuel_node n k : minfuel (RNode n) (S (S k)) -> n < length nds /\ exists up f, nth_error nds n = Some (Some up, f) /\ minfuel up (S k).
Proof.
  intros [A B]. pose proof (B 1 ltac:(lia)) as B1. cbn in A, B1. destruct (nth_error nds n) as [[[up|] f]|] eqn:E; try discriminate.
  split; [eapply nth_some_lt; exact E|]. exists up, f. split; [reflexivity|]. split.
  - intros K. apply A. cbn in K. rewrite K. reflexivity.
  - intros j Hj. specialize (B (S j) ltac:(lia)). cbn in B. rewrite E in B. destruct (chain j nds up) as [p|e]; [discriminate|]. cbn in B. congruence.
Qed.
Lemma minfuel_path k : forall r, minfuel r (S k) -> exists p, length p = k /\ NoDup p /\ (forall n, In n p -> n < length nds) /\ forall n, In n p -> exists j, j <= S k /\ minfuel (RNode n) j.
Proof.
  induction k as [|k IH]; intros r H.
  - exists []. repeat split; try constructor; intros n [].
  - destruct r as [n|s].
    2: { destruct H as [_ H]. specialize (H 0 ltac:(lia)). discriminate. }
    destruct (minfuel_node _ _ H) as (L & up & f & E & H'). destruct (IH _ H') as (p & P1 & P2 & P3 & P4).
    exists (n :: p). split; [cbn; lia|]. split; [|split].
    + constructor; [|exact P2]. intros Hi. destruct (P4 _ Hi) as (j & Lj & Hj). pose proof (minfuel_fun _ _ _ H Hj). lia.
    + intros m [<-|Hm]; auto.
    + intros m [<-|Hm]; [exists (S (S k)); auto|]. destruct (P4 _ Hm) as (j & Lj & Hj). exists j. split; [lia|exact Hj].
Qed.
Lemma chain_stable k r k' : chain k nds r <> Err RuntimeError -> k <= k' -> chain k' nds r <> Err RuntimeError.
Proof.
  revert r k'; induction k as [|k IH]; intros r k' H L; destruct r as [n|s]; cbn in H; try (now elim H); try (destruct k'; cbn; discriminate).
  destruct k' as [|k']; [lia|]. cbn. destruct (nth_error nds n) as [[[up|] f]|]; try discriminate.
  assert (H' : chain k nds up <> Err RuntimeError). { intros K. apply H. now rewrite K. }
  specialize (IH up k' H' ltac:(lia)). destruct (chain k' nds up); cbn; [discriminate|]. congruence.
Qed.
Lemma chain_minfuel k r : chain k nds r <> Err RuntimeError -> exists j, j <= k /\ minfuel r j.
Proof.
  induction k as [|k IH]; intros H.
  - exists 0. split; [lia|]. split; [exact H|]. intros j L. lia.
  - destruct (chain k nds r) as [p|e] eqn:E.
    + destruct IH as (j & L & Hj); [discriminate|]. exists j. split; [lia|exact Hj].
    + assert (D : {e = RuntimeError} + {e <> RuntimeError}) by (destruct e; (left; reflexivity) || (right; discriminate)).
      destruct D as [->|D].
      * exists (S k). split; [lia|]. split; [exact H|]. intros j L. destruct (chain j nds r) as [p|e] eqn:Ej.
        -- exfalso. apply (chain_stable j r k); [congruence|lia|exact E].
        -- assert (D : {e = RuntimeError} + {e <> RuntimeError}) by (destruct e; (left; reflexivity) || (right; discriminate)).
           destruct D as [->|D]; [reflexivity|]. exfalso. apply (chain_stable j r k); [congruence|lia|exact E].
      * destruct IH as (j & L & Hj); [congruence|]. exists j. split; [lia|exact Hj].
Qed.
Lemma chain_enough r : chain (S (length nds)) nds r = Err RuntimeError -> forall fuel, chain fuel nds r = Err RuntimeError.
Proof.
  intros H fuel.
  assert (K : chain fuel nds r <> Err RuntimeError -> False).
  { intros K. destruct (chain_minfuel fuel r K) as (k & _ & Hk). destruct k as [|k]; [apply (chain_stable 0 r (S (length nds))); [apply Hk|lia|exact H]|].
    destruct (minfuel_path _ _ Hk) as (q & Q1 & Q2 & Q3 & _). pose proof (nodup_bound _ _ Q2 Q3).
    apply (chain_stable (S k) r (S (length nds))); [apply Hk|lia|exact H]. }
  destruct (chain fuel nds r) as [p|e]; [exfalso; apply K; discriminate|]. destruct e; try reflexivity; exfalso; apply K; discriminate.
Qed.
End F.

Section M.
Context {C : Type}.
Variables (user : nat -> C -> C) (resample : Z -> Z -> C -> C) (series : C -> C).

Lemma nth_user n m : m < n -> nth_error (map (fun k => (@None ref, User k)) (seq 0 n)) m = Some (None, User m).
Proof.
  intros H. rewrite nth_error_map. assert (E : nth_error (seq 0 n) m = Some m).
  { rewrite (nth_error_nth' _ 0) by (now rewrite seq_length). now rewrite seq_nth. }
  now rewrite E.
Qed.
Lemma initial_before ls n ds (outl inl : nat -> Prop) pd (a : args C) ns (N : nat -> Prop) :
  Forall (Forall (fun k => k < n)) ls -> own_nodes ls a ns -> (forall m, In m ns -> N m) -> (forall m, N m -> m < n) ->
  (forall l ms m, outl l -> nth_error ls l = Some ms -> In m ms -> ~ N m) -> (forall l ms m, inl l -> nth_error ls l = Some ms -> In m ms -> N m) ->
  Before (length ls) (length ds) outl inl (a_prep a) pd a ns ds N None (initial ls n ds).
Proof.
  intros HV HO HN HB Hout Hin.
  assert (LB : forall l ms m, nth_error ls l = Some ms -> In m ms -> m < n).
  { intros l ms m H Hm. apply nth_error_In in H. rewrite Forall_forall in HV. specialize (HV _ H). rewrite Forall_forall in HV. auto. }
  assert (NN : forall m r f, nth_error (nodes (initial (C := C) ls n ds)) m = Some (Some r, f) -> False).
  { intros m r f H. cbn in H. pose proof (nth_some_lt _ _ _ H) as L. rewrite map_length, seq_length in L. rewrite nth_user in H by exact L. discriminate. }
  split.
  - split; cbn [lists dicts nodes sources gens initial]; auto.
    + intros l ms m H Hm. rewrite map_length, seq_length. eapply LB; eassumption.
    + intros m r f H. exfalso. exact (NN _ _ _ H).
    + intros i x H. destruct i; discriminate.
    + intros m H. rewrite map_length, seq_length. auto.
    + discriminate.
    + discriminate.
    + intros m r f _ H. exfalso. exact (NN _ _ _ H).
    + intros i x _ H. destruct i; discriminate.
  - exact HO.
  - exact HN.
  - intros m Hm. exists None. apply nth_user. auto.
  - auto.
  - auto.
Qed.

Definition opt_dict (ds : list (option Z)) (a : args C) : option nat :=
  match a_opts a with Some d => if resampling a then match nth_error ds d with Some None => Some d | _ => None end else None | None => None end.
Lemma opt_dict_lt ds a d : opt_dict ds a = Some d -> d < length ds.
Proof.
  unfold opt_dict. destruct (a_opts a) as [d'|]; [|discriminate]. destruct (resampling a); [|discriminate]. destruct (nth_error ds d') as [[v|]|] eqn:E; try discriminate.
  intros [= <-]. eapply nth_some_lt; exact E.
Qed.
Lemma opt_dict_own ds a d : a_opts a = Some d -> resampling a = true -> nth_error ds d = Some None -> opt_dict ds a = Some d.
Proof. unfold opt_dict. intros -> -> ->. reflexivity. Qed.
Lemma opt_dict_keeps ds a b : opts_apart ds a b -> keeps_opts (opt_dict ds a) b.
Proof.
  intros H d Hd Hb. unfold opt_dict in Hd. destruct (a_opts a) as [d'|] eqn:Ea; [|discriminate]. destruct (resampling a) eqn:Er; [|discriminate].
  destruct (nth_error ds d') as [[v|]|] eqn:E; try discriminate. injection Hd as ->. exact (H _ Ea Er E Hb).
Qed.

Theorem own_ok ls n ds pre (a : args C) post ns cs st xs :
  valid_program ls n ds (pre ++ Load a :: post) -> own_nodes ls a ns -> NoDup ns -> a_src a = Ok cs -> (resampling a = true -> (0 < period a)%Z) ->
  (forall o b, In o (pre ++ post) -> op_args o = Some b -> apart ls a b /\ opts_apart ds a b) ->
  run user resample series (initial ls n ds) (pre ++ Load a :: post) = (st, xs) ->
  exists xs1 g ys lim, xs = xs1 ++ Made g :: ys /\ length xs1 = length pre /\ (resampling a = true -> own_limit ds a lim) /\
    yields (map (asked user resample a ns lim) cs) (answers_of g post ys).
Proof.
  intros [HV HOps] HO HND HS HP HA.
  assert (NM : forall o b, In o (pre ++ Load a :: post) -> op_args o = Some b -> names ls ds b). { rewrite Forall_forall in HOps. eauto. }
  assert (NA : names ls ds a). { apply (NM (Load a)); [|reflexivity]. apply in_or_app. right. now left. }
  set (outl := fun l => l < length ls /\ Some l <> a_prep a /\ forall ms, nth_error ls l = Some ms -> disjoint ns ms).
  assert (FO : forall o b, In o (pre ++ post) -> op_args o = Some b -> outside outl (opt_dict ds a) b).
  { intros o b Hi Ho. destruct (HA _ _ Hi Ho) as [A1 A2]. split; [now apply opt_dict_keeps|]. intros l Hl.
    assert (NB : names ls ds b). { apply (NM o); [|exact Ho]. apply in_app_or in Hi. apply in_or_app. destruct Hi as [Hi|Hi]; [left; exact Hi|right; right; exact Hi]. }
    pose proof (proj1 NB _ Hl) as LL. split; [exact LL|]. unfold own_nodes in HO. destruct (a_prep a) as [l0|] eqn:Ep.
    - destruct (nth_error ls l) as [ms|] eqn:El; [|apply nth_error_None in El; lia]. destruct (A1 l0 l ns ms Ep Hl HO El) as [B1 B2]. split; [congruence|]. intros ms' [= <-]. exact B2.
    - split; [discriminate|]. subst ns. intros ms _ k []. }
  assert (FR : forall g0 o, In o (pre ++ post) -> match o with Pull g => Some g <> g0 | _ => True end -> foreign outl (fun _ => False) (a_prep a) (opt_dict ds a) g0 o).
  { intros g0 [b|b|g] Hi Hg; cbn; [apply (FO _ _ Hi eq_refl)|left; apply (FO _ _ Hi eq_refl)|exact Hg]. }
  eapply (load_own user resample series (length ls) (length ds) outl (fun _ => False) (a_prep a) (opt_dict ds a)) with (N := fun m => In m ns).
  - intros l (A1 & A2 & _). auto.
  - intros l [].
  - intros l _ [].
  - intros l Hl. exact (proj1 NA _ Hl).
  - intros d Hd. eapply opt_dict_lt; exact Hd.
  - reflexivity.
  - exact HS.
  - exact HND.
  - exact HP.
  - exact (proj2 NA).
  - reflexivity.
  - intros d H1 H2 H3. now apply opt_dict_own.
  - auto.
  - apply initial_before; auto.
    + intros m Hm. unfold own_nodes in HO. destruct (a_prep a) as [l|]; [|subst; destruct Hm]. apply nth_error_In in HO. rewrite Forall_forall in HV. specialize (HV _ HO). rewrite Forall_forall in HV. auto.
    + intros l ms m (_ & _ & H3) El Hm Hn. exact (H3 _ El _ Hn Hm).
    + intros l ms m [].
  - apply Forall_forall. intros o Ho. apply FR; [apply in_or_app; now left|]. destruct o; auto. discriminate.
  - intros g. apply Forall_forall. intros o Ho. assert (Hi : In o (pre ++ post)) by (apply in_or_app; now right).
    assert (D : o = Pull g \/ match o with Pull g' => Some g' <> Some g | _ => True end).
    { destruct o as [b|b|g']; auto. destruct (Nat.eq_dec g' g) as [->|Ne]; [now left|right; congruence]. }
    destruct D as [->|D]; [right; reflexivity|left; now apply FR].
Qed.

Theorem series_ok ls n ds pre (a : args C) post ns cs st xs :
  valid_program ls n ds (pre ++ Series a :: post) -> own_nodes ls a ns -> NoDup ns -> a_src a = Ok cs -> (resampling a = true -> (0 < period a)%Z) ->
  (forall o b, In o (pre ++ post) -> op_args o = Some b -> opts_apart ds a b) ->
  (forall b l, In (Series b) (pre ++ post) -> a_prep a = Some l -> a_prep b = Some l -> resampling b = false) ->
  (forall b c, In (Load b) (pre ++ post) -> In (Series c) (pre ++ Series a :: post) -> apart ls c b) ->
  run user resample series (initial ls n ds) (pre ++ Series a :: post) = (st, xs) ->
  exists xs1 g ys lim, xs = xs1 ++ Made g :: ys /\ length xs1 = length pre /\ (resampling a = true -> own_limit ds a lim) /\
    yields (map (fun c => series (asked user resample a ns lim c)) cs) (answers_of g post ys).
Proof.
  intros [HV HOps] HO HND HS HP HD HQ HA.
  assert (IN : forall o, In o (pre ++ post) -> In o (pre ++ Series a :: post)).
  { intros o Hi. apply in_app_or in Hi. apply in_or_app. destruct Hi as [Hi|Hi]; [left; exact Hi|right; right; exact Hi]. }
  assert (INA : In (Series a) (pre ++ Series a :: post)) by (apply in_or_app; right; now left).
  assert (NM : forall o b, In o (pre ++ Series a :: post) -> op_args o = Some b -> names ls ds b). { rewrite Forall_forall in HOps. eauto. }
  assert (NA : names ls ds a) by (apply (NM (Series a)); auto).
  set (inl := fun l => exists c, In (Series c) (pre ++ Series a :: post) /\ a_prep c = Some l).
  set (N := fun m => exists l ms, inl l /\ nth_error ls l = Some ms /\ In m ms).
  set (outl := fun l => l < length ls /\ ~ inl l /\ forall ms m, nth_error ls l = Some ms -> In m ms -> ~ N m).
  assert (FR : forall g0 o, In o (pre ++ post) -> match o with Pull g => Some g <> g0 | _ => True end -> foreign outl inl (a_prep a) (opt_dict ds a) g0 o).
  { intros g0 [b|b|g] Hi Hg; cbn; [| |exact Hg].
    - split; [apply opt_dict_keeps; exact (HD _ _ Hi eq_refl)|]. intros l Hl. pose proof (proj1 (NM _ _ (IN _ Hi) eq_refl) _ Hl) as LL. split; [exact LL|].
      destruct (nth_error ls l) as [ms|] eqn:El; [|apply nth_error_None in El; lia]. split.
      + intros (c & Hc & Hcl). destruct (HA _ _ Hi Hc l l ms ms Hcl Hl El El) as [K _]. congruence.
      + intros ms' m [= <-] Hm (l' & ms2 & (c & Hc & Hcl) & El' & Hm'). destruct (HA _ _ Hi Hc l' l ms2 ms Hcl Hl El' El) as [_ K]. exact (K _ Hm' Hm).
    - destruct (a_prep b) as [l|] eqn:Eb.
      + right. split; [apply opt_dict_keeps; exact (HD _ _ Hi eq_refl)|]. exists l. split; [exact Eb|]. split; [exists b; split; [apply IN; exact Hi|exact Eb]|].
        intros HR K. pose proof (HQ _ _ Hi (eq_sym K) Eb). congruence.
      + left. split; [apply opt_dict_keeps; exact (HD _ _ Hi eq_refl)|]. intros l Hl. congruence. }
  eapply (series_own user resample series (length ls) (length ds) outl inl (a_prep a) (opt_dict ds a)) with (N := N).
  - intros l (A1 & A2 & _). split; [exact A1|]. intros K. apply A2. exists a. auto.
  - intros l (c & Hc & Hl). exact (proj1 (NM _ _ Hc eq_refl) _ Hl).
  - intros l (_ & K & _) K'. exact (K K').
  - intros l Hl. exact (proj1 NA _ Hl).
  - intros d Hd. eapply opt_dict_lt; exact Hd.
  - reflexivity.
  - exact HS.
  - exact HND.
  - exact HP.
  - exact (proj2 NA).
  - reflexivity.
  - intros d H1 H2 H3. now apply opt_dict_own.
  - apply initial_before; auto.
    + intros m Hm. unfold own_nodes in HO. destruct (a_prep a) as [l|] eqn:Ep; [|subst; destruct Hm]. exists l, ns. split; [exists a; auto|]. auto.
    + intros m (l & ms & _ & El & Hm). apply nth_error_In in El. rewrite Forall_forall in HV. specialize (HV _ El). rewrite Forall_forall in HV. auto.
    + intros l ms m (_ & _ & H3) El Hm. exact (H3 _ _ El Hm).
    + intros l ms m Hi El Hm. exists l, ms. auto.
  - apply Forall_forall. intros o Ho. apply FR; [apply in_or_app; now left|]. destruct o; auto. discriminate.
  - intros g. apply Forall_forall. intros o Ho. assert (Hi : In o (pre ++ post)) by (apply in_or_app; now right).
    assert (D : o = Pull g \/ match o with Pull g' => Some g' <> Some g | _ => True end).
    { destruct o as [b|b|g']; auto. destruct (Nat.eq_dec g' g) as [->|Ne]; [now left|right; congruence]. }
    destruct D as [->|D]; [right; reflexivity|left; now apply FR].
Qed.
End M.
