(** Lemmas about good sections answered with the cache: histories. *)
From Coq Require Import Sorted Permutation.
From Verif Require Import Base TimeFrameModel TimeFrameSpec TimeFrameProofs SortLib StoreModel StoreSpec StoreProofs StoreProofs2 ResultsModel ResultsSpec ResultsProofs
  GoodSectionsModel GoodSectionsSpec WholeModel WholeSpec WholeProofs GoodCacheModel GoodCacheSpec GoodCacheProofs GoodCacheProofs2.
From Verif Require CacheModel.
Import List. Open Scope Z_scope.

Definition line (k : Z * Z) (t : tf) : gs_cached := mkCached (Some (fst k)) (Some (snd k)) (tf_start t) (tf_end t).

Section History.
  Variable msp : Z.
  Variable load : list tf -> gen (chunk bool).
  Variable S : list tf.
  Hypothesis proper : proper_chunks load S.
  Hypothesis apart : no_mistaken_chunk load S.

  Definition kept (cache : list gs_cached) : Prop :=
    Forall (fun c => exists a b, gc_start c = Some a /\ gc_end c = Some b /\ a < b) cache /\
    forall s k, In s S -> key_of s k ->
      cached_group cache k = [] \/
      exists v, v <> [] /\ Forall rebuilt v /\ gs_process msp (load [s]) = Ok [mkRow (Some (fst k)) (Some (snd k)) v] /\ cached_group cache k = map (line k) v.

  Lemma kept_nil : kept [].
  Proof. split; [constructor|]. intros s k _ _. left. reflexivity. Qed.

  Lemma keys_ordered cache : kept cache -> Forall (fun k => fst k < snd k) (cached_keys cache).
  Proof.
    intros [K _]. rewrite Forall_forall in *. intros [a b] I. apply keys_in in I. destruct I as (c & C & E1 & E2).
    destruct (K c C) as (x & y & X & Y & L). cbn. congruence.
  Qed.

  Lemma rebuild k v : Forall rebuilt v -> mapM (fun c => mk (gc_sec_start c) (gc_sec_end c)) (map (line k) v) = Ok v.
  Proof.
    induction 1 as [|t v T V IH]; [reflexivity|]. cbn [map mapM line gc_sec_start gc_sec_end]. unfold rebuilt in T. rewrite T. cbn [bind].
    rewrite IH. reflexivity.
  Qed.

  Lemma group_app a b k : cached_group (a ++ b) k = cached_group a k ++ cached_group b k.
  Proof. apply filter_app. Qed.
  Lemma group_lines k v : cached_group (map (line k) v) k = map (line k) v.
  Proof.
    induction v as [|t v IH]; [reflexivity|]. cbn [map]. unfold cached_group. cbn [filter line gc_start gc_end oeqb]. rewrite !Z.eqb_refl. cbn [andb]. f_equal. exact IH.
  Qed.

  Lemma exported d c : In c (gs_export d) -> exists r t, In r d /\ In t (r_val r) /\ c = mkCached (r_start r) (r_end r) (tf_start t) (tf_end t).
  Proof.
    unfold gs_export. rewrite in_concat. intros (l & L & I). apply in_map_iff in L. destruct L as (r & <- & R). apply in_map_iff in I. destruct I as (t & <- & T).
    exists r, t. auto.
  Qed.

  Lemma kept_new cache s d : kept cache -> In s S -> (forall k, key_of s k -> cached_group cache k = []) ->
    gs_process msp (load [s]) = Ok d -> kept (cache ++ gs_export d).
  Proof.
    intros [K1 K2] Is Hn P. destruct (process_tidy msp (load [s]) d) as [T F]; [intros ch I; exact (proper s ch Is I)|exact P|].
    rewrite Forall_forall in F. split.
    - apply Forall_app. split; [exact K1|]. apply Forall_forall. intros c C. apply exported in C. destruct C as (r & t & R & _ & ->).
      destruct (F r R) as (ch & I & E1 & E2 & _). destruct (proper s ch Is I) as (a & b & (B1 & B2 & _ & B4)).
      exists a, b. cbn. split; [congruence|]. split; [congruence|exact B4].
    - intros s0 k I0 K0. rewrite group_app. destruct (cached_group (gs_export d) k) as [|c l] eqn:G.
      + rewrite app_nil_r. exact (K2 s0 k I0 K0).
      + assert (C : In c (cached_group (gs_export d) k)) by (rewrite G; left; reflexivity).
        apply filter_In in C. destruct C as [C E]. apply andb_true_iff in E. destruct E as [E1 E2]. apply oeqb_eq in E1, E2.
        apply exported in C. destruct C as (r & t & R & _ & ->). cbn [gc_start gc_end] in E1, E2.
        destruct (F r R) as (ch & I & F1 & F2 & FR).
        assert (SE : same_ends (c_tf ch) s0). { destruct K0 as [A B]. split; congruence. }
        destruct (apart s0 s ch I0 Is I SE) as ([A B] & EL & EC).
        assert (Ks : key_of s k). { destruct K0 as [A' B']. split; congruence. }
        rewrite (Hn k Ks). right. destruct (load [s]) as [cs er] eqn:L. cbn [fst] in *. subst cs.
        destruct (process_one msp ch er d P) as [->|(v & Nv & ->)]; [destruct R|]. destruct R as [<-|[]]. cbn [r_start r_end r_val] in *.
        exists v. rewrite EL. rewrite P. split; [exact Nv|]. split; [exact FR|]. split; [rewrite E1, E2; reflexivity|]. cbn [app]. rewrite <- G.
        unfold gs_export. cbn [map concat r_start r_end r_val]. rewrite app_nil_r, E1, E2. apply group_lines.
  Qed.

  Lemma step cache s : kept cache -> In s S -> tf_empty s = false ->
    exists cache', get_good msp load [s] cache = (good_sections_of msp (load [s]), cache') /\ kept cache' /\
      (cache' = cache \/ exists d, gs_process msp (load [s]) = Ok d /\ cache' = cache ++ gs_export d).
  Proof.
    intros K Is Hs. pose proof (keys_ordered _ K) as KO. unfold get_good. cbn [filter]. rewrite Hs. cbn [negb].
    assert (D : (exists k, key_of s k /\ cached_group cache k <> []) \/ (forall k, key_of s k -> cached_group cache k = [])).
    { destruct (tf_start s) as [a|] eqn:A; [|right; intros k [X _]; congruence].
      destruct (tf_end s) as [b|] eqn:B; [|right; intros k [_ X]; congruence].
      destruct (cached_group cache (a, b)) as [|c l] eqn:G.
      - right. intros [x y] [X Y]. cbn in X, Y. rewrite <- G. f_equal. congruence.
      - left. exists (a, b). split; [split; assumption|]. rewrite G. discriminate. }
    destruct D as [(k & Ks & G)|Hn].
    - destruct (proj2 K s k Is Ks) as [E|(v & Nv & FR & P & E)]; [congruence|].
      unfold gs_import. rewrite (import_one cache s k v Hs Ks); [| |apply keys_nodup|exact KO|apply group_some; exact G].
      2:{ rewrite E. apply rebuild. exact FR. }
      set (r := mkRow (Some (fst k)) (Some (snd k)) v). destruct (effect_frame msp r) as (v' & EF). rewrite EF.
      assert (Lt : fst k < snd k). { rewrite Forall_forall in KO. exact (KO k (group_some _ _ G)). }
      unfold results_timeframes. cbn [mapM row_tf r_start r_end r].
      unfold row_tf at 1. cbn [r_start r_end]. rewrite mk_ok by (intros a b [= <-] [= <-]; exact Lt). cbn [bind].
      assert (M : CacheModel.missing [s] [mkTF (Some (fst k)) (Some (snd k)) true false false] = []).
      { unfold CacheModel.missing. cbn [CacheModel.unique filter existsb]. unfold CacheModel.tf_same at 1. destruct Ks as [A B]. rewrite A, B, Hs.
        cbn. rewrite !Z.eqb_refl. reflexivity. }
      rewrite M. exists cache. split; [|split; [exact K|left; reflexivity]]. f_equal. pose proof (effect_again msp r) as EA. rewrite EF in EA. cbn [r_start r_end r] in EA. rewrite EA.
      unfold good_sections_of. rewrite P. cbn [bind]. apply effect_combined.
    - unfold gs_import. rewrite import_other; [|exact Hs|exact KO|].
      2:{ intros k I Ks. apply (group_nil cache k); [apply Hn; exact Ks|exact I]. }
      change (combined_effect msp []) with (Ok (@nil tf), @nil (row (list tf))). cbn [snd results_timeframes mapM].
      change (CacheModel.missing [s] []) with [s]. cbn iota.
      unfold good_sections_of. destruct (gs_process msp (load [s])) as [d|e] eqn:P; cbn [bind].
      + destruct (process_tidy msp (load [s]) d) as [(T1 & T2 & T3) _]; [intros ch I; exact (proper s ch Is I)|exact P|].
        rewrite (update_nil d T1 T2 T3). exists (cache ++ gs_export d). split; [f_equal; apply effect_combined|].
        split; [exact (kept_new cache s d K Is Hn P)|]. right. exists d. split; reflexivity.
      + exists cache. split; [reflexivity|]. split; [exact K|left; reflexivity].
  Qed.

  Lemma history : forall h cache, kept cache -> incl h S -> Forall (fun s => tf_empty s = false) h ->
    fst (serve_good msp load (map (fun s => [s]) h) cache) = map (fun s => good_sections_of msp (load [s])) h.
  Proof.
    induction h as [|s h IH]; intros cache K I E; [reflexivity|]. apply Forall_cons_iff in E. destruct E as [E1 E2].
    destruct (step cache s K (I s (or_introl eq_refl)) E1) as (cache' & G & K' & _). cbn [map serve_good]. rewrite G.
    specialize (IH cache' K' (fun x X => I x (or_intror X)) E2). destruct (serve_good msp load (map (fun s => [s]) h) cache') as [l f]. cbn [fst] in *.
    now rewrite IH.
  Qed.
End History.

Lemma singles msp load h : Forall (fun s => tf_empty s = false) h -> proper_chunks load h -> no_mistaken_chunk load h ->
  fst (serve_good msp load (map (fun s => [s]) h) []) = map (fun s => good_sections_of msp (load [s])) h.
Proof. intros E P A. apply (history msp load h P A); [apply kept_nil|intros x X; exact X|exact E]. Qed.

(** ** The whole meter *)

Lemma chain_after : forall l s e p, chain s l e -> In p l -> exists a b, bounded p a b /\ s <= a /\ b <= e.
Proof.
  induction l as [|q l IH]; intros s e p H I; [destruct I|]. destruct H as (m & B & H).
  assert (ME : m <= e). { clear - H. revert m H. induction l as [|x l IH]; intros m H; [cbn in H; lia|]. destruct H as (m' & (_ & _ & _ & L) & H). specialize (IH _ H). lia. }
  destruct I as [<-|I].
  - exists s, m. split; [exact B|lia].
  - destruct (IH m e p H I) as (a & b & Bp & L1 & L2). destruct B as (_ & _ & _ & L). exists a, b. split; [exact Bp|lia].
Qed.

Lemma chain_alone l s e p : chain s l e -> In p l -> tf_start p = Some s -> tf_end p = Some e -> l = [p].
Proof.
  destruct l as [|q l]; intros H I P1 P2; [destruct I|]. destruct H as (m & B & H). destruct I as [<-|I].
  - destruct l as [|q' l]; [reflexivity|]. exfalso. destruct B as (_ & B2 & _ & L). assert (m = e) by congruence. subst m.
    destruct (chain_after _ _ _ q' H (or_introl eq_refl)) as (a & b & (_ & _ & _ & L') & L1 & L2). lia.
  - exfalso. destruct (chain_after _ _ _ p H I) as (a & b & (A & _ & _ & _) & L1 & L2). destruct B as (_ & _ & _ & L). assert (a = s) by congruence. lia.
Qed.

Definition well_cut {A} (s : tf) (cs : list (chunk A)) : Prop :=
  forall ch, In ch cs -> (exists a b, bounded (c_tf ch) a b /\ forall i, inTF (c_tf ch) i -> inTF s i) /\ (same_ends (c_tf ch) s -> cs = [ch]).

Lemma intersection_inside window s a b : bounded s a b -> inside_window window s ->
  exists w, intersection window s = Ok w /\ tf_start w = Some a /\ tf_end w = Some b /\ tf_empty w = false.
Proof.
  intros (A & B & E & L) (WE & W1 & W2).
  assert (S1 : isect_start window s = Some a).
  { unfold isect_start. rewrite A. destruct (tf_start window) as [x|]; [|reflexivity]. destruct (W1 x eq_refl) as (y & Y & LY). f_equal. assert (y = a) by congruence. lia. }
  assert (S2 : isect_end window s = Some b).
  { unfold isect_end. rewrite B. destruct (tf_end window) as [x|]; [|reflexivity]. destruct (W2 x eq_refl) as (y & Y & LY). f_equal. assert (y = b) by congruence. lia. }
  destruct (intersection_cases window s) as [(Em & _)|[(_ & (s2 & e2 & A1 & A2 & A3) & _)|(_ & _ & E2)]].
  - rewrite WE, E in Em. discriminate.
  - rewrite S1 in A1. rewrite S2 in A2. injection A1 as <-. injection A2 as <-. lia.
  - rewrite E2, S1, S2. eexists. split; [reflexivity|]. auto.
Qed.

Lemma chunks_well_cut {V} (rows : list (sample V)) window s a b n c : increasing rows -> (1 <= c)%nat -> bounded s a b -> inside_window window s ->
  exists cs, hdf_load rows window [s] n c = (cs, None) /\ well_cut s cs.
Proof.
  intros Hinc Hc Bs Hw. destruct (intersection_inside window s a b Bs Hw) as (w & Ei & W1 & W2 & W3).
  assert (M : exists m, rows_of_period w rows m). { eexists. apply rows_of_period_filter. reflexivity. }
  destruct M as (m & M). destruct (section_bounded rows window s w m n c Hinc Hc Ei W3) as (S0 & S1 & S2); [left; congruence|exact M|].
  cbn [hdf_load]. destruct m as [|x [|y m]].
  - rewrite (S0 eq_refl). eexists. split; [reflexivity|]. cbn [fst snd gen_app app]. intros ch [<-|[]]. cbn [c_tf]. destruct Bs as (A & B & E & L). split; [|reflexivity].
    exists a, b. split; [split; [exact W1|split; [exact W2|split; [exact W3|exact L]]]|]. unfold inTF. rewrite W1, W2, A, B, E. intros i (_ & P & Q). auto.
  - rewrite (S1 eq_refl). eexists. split; [reflexivity|]. intros ch [].
  - destruct S2 as (cs & Ec & _ & s' & e' & Hch & [C1 C2]); [cbn; lia|]. rewrite Ec. eexists. split; [reflexivity|]. cbn [fst snd gen_app]. rewrite app_nil_r.
    assert (s' = a) by (destruct C1 as [C1|[C1 _]]; congruence). assert (e' = b) by (destruct C2 as [C2|[C2 _]]; congruence). subst s' e'.
    destruct Bs as (A & B & E & L). intros ch I. split.
    + destruct (chain_after _ _ _ (c_tf ch) Hch (in_map c_tf _ _ I)) as (x' & y' & Bp & L1 & L2). exists x', y'. split; [exact Bp|].
      intros i Hi. apply (inTF_bounded _ _ _ _ Bp) in Hi. unfold inTF. rewrite A, B. split; [exact E|]. split; intros z [= <-]; lia.
    + intros [X Y]. rewrite A in X. rewrite B in Y. pose proof (chain_alone _ _ _ (c_tf ch) Hch (in_map c_tf _ _ I) X Y) as Q.
      destruct cs as [|q [|q' cs]]; [destruct I| |discriminate]. destruct I as [<-|[]]. reflexivity.
Qed.

Lemma sections_answered msp rows window c h : increasing rows -> (1 <= c)%nat -> Forall is_bounded h -> Forall (inside_window window) h -> same_or_apart h ->
  meter_goods msp rows window c (map (fun s => [s]) h) = map (fun s => good_sections_of msp (hdf_load rows window [s] 10 c)) h.
Proof.
  intros Hinc Hc Hb Hw Hd. rewrite Forall_forall in Hb, Hw.
  assert (W : forall s, In s h -> exists cs, hdf_load rows window [s] 10 c = (cs, None) /\ well_cut s cs).
  { intros s I. destruct (Hb s I) as (a & b & B). exact (chunks_well_cut rows window s a b 10 c Hinc Hc B (Hw s I)). }
  unfold meter_goods. apply (singles msp (fun ss => hdf_load rows window ss 10 c)).
  - rewrite Forall_forall. intros s I. destruct (Hb s I) as (a & b & (_ & _ & E & _)). exact E.
  - intros s ch I C. destruct (W s I) as (cs & E & H). rewrite E in C. destruct (H ch C) as ((a & b & B & _) & _). exists a, b. exact B.
  - intros s s' ch I I' C SE. destruct (W s' I') as (cs & E & H). rewrite E in *. cbn [fst] in *. destruct (H ch C) as ((a & b & B & Sub) & Al).
    destruct (Hd s s' I I') as [->|D].
    + split; [split; reflexivity|]. split; [exact E|]. exact (Al SE).
    + exfalso. destruct B as (B1 & B2 & B3 & B4). destruct (Hb s I) as (x & y & (X & Y & Z & L)). destruct SE as [S1 S2].
      apply (D a). split.
      * unfold inTF. split; [exact Z|]. split; intros q Q; [assert (q = a) by congruence|assert (q = b) by congruence]; lia.
      * apply Sub. unfold inTF. split; [exact B3|]. split; intros q Q; [assert (q = a) by congruence|assert (q = b) by congruence]; lia.
Qed.

Lemma nothing_asked msp load n : serve_good msp load (repeat [] n) [] = (repeat (Ok []) n, []).
Proof. induction n as [|n IH]; [reflexivity|]. cbn [repeat serve_good]. change (get_good msp load [] []) with (Ok (@nil tf), @nil gs_cached). cbn iota beta. rewrite IH. reflexivity. Qed.

Lemma map_repeat' {A B} (f : A -> B) x n : map f (repeat x n) = repeat (f x) n.
Proof. induction n as [|n IH]; [reflexivity|]. cbn. now rewrite IH. Qed.

Lemma whole_answered msp rows window c n ss : increasing rows -> (2 <= length rows)%nat -> (1 <= c)%nat -> stat_sections rows window = Ok ss ->
  meter_goods msp rows window c (repeat ss n) = repeat (whole_good msp rows window c) n.
Proof.
  intros Hinc H2 Hc E. unfold whole_good. rewrite E. cbn [bind]. unfold stat_sections in E.
  destruct (table_ends rows Hinc H2) as (f & l & _ & _ & Lt & _ & T). rewrite T in E.
  destruct (intersection window (mkTF (Some f) (Some l) true false false)) as [t|] eqn:I; [|discriminate]. cbn [bind filter] in E. injection E as E.
  change (tf_empty (set_incl t true)) with (tf_empty t) in E. destruct (tf_empty t) eqn:Et; cbn [negb] in E; subst ss.
  - unfold meter_goods. rewrite nothing_asked. reflexivity.
  - rewrite <- (map_repeat' (fun s => [s])). rewrite sections_answered; [apply (map_repeat' (fun s => good_sections_of msp (hdf_load rows window [s] 10 c)))|exact Hinc|exact Hc| | |].
    + apply Forall_forall. intros x X. apply repeat_spec in X. subst x.
      destruct (intersection_cases window (mkTF (Some f) (Some l) true false false)) as [(Em & E2)|[(_ & _ & E2)|(_ & Hse & E2)]]; rewrite E2 in I; injection I as <-; try discriminate.
      unfold isect_start, isect_end in *. cbn in *.
      destruct (tf_start window) as [a|], (tf_end window) as [b|]; eexists; eexists; (split; [reflexivity|split; [reflexivity|split; [reflexivity|]]]); apply Hse; reflexivity.
    + apply Forall_forall. intros x X. apply repeat_spec in X. subst x.
      destruct (intersection_cases window (mkTF (Some f) (Some l) true false false)) as [(Em & E2)|[(_ & _ & E2)|(Em & Hse & E2)]]; rewrite E2 in I; injection I as <-; try discriminate.
      unfold isect_start, isect_end in *. cbn in *. apply orb_false_iff in Em.
      split; [apply Em|]. split; intros x X; rewrite X in *; cbn; eexists; (split; [reflexivity|lia]).
    + intros x y X Y. apply repeat_spec in X. apply repeat_spec in Y. left. congruence.
Qed.

(** ** Where the cache goes wrong *)

Definition frame (a b : Z) : tf := mkTF (Some a) (Some b) true false false.
Definition steady : list (sample bool) := map (fun t => (t, true)) [0; 10; 20; 30; 40; 200; 210; 220].

Lemma frame_bounded a b : a < b -> is_bounded (frame a b).
Proof. intros L. exists a, b. split; [reflexivity|split; [reflexivity|split; [reflexivity|exact L]]]. Qed.
Lemma steady_increasing : increasing steady.
Proof. cbn. lia. Qed.
Lemma steady_nan_free : nan_free steady.
Proof. repeat constructor. Qed.

Lemma repeat_raises : exists msp rows c A B us, increasing rows /\ nan_free rows /\ is_bounded A /\ is_bounded B /\ tf_end A = tf_start B /\
  meter_goods msp rows tf_cleared c [[A; B]; [A; B]] = [Ok us; Err IndexError].
Proof.
  exists 10, steady, 100%nat, (frame 0 20), (frame 20 50), [mkTF (Some 0) (Some 40) true false true].
  split; [exact steady_increasing|]. split; [exact steady_nan_free|]. split; [apply frame_bounded; lia|]. split; [apply frame_bounded; lia|]. split; [reflexivity|].
  vm_compute. reflexivity.
Qed.
Lemma order_matters : exists msp rows c A B a0 us us', increasing rows /\ nan_free rows /\ is_bounded A /\ is_bounded B /\ tf_end A = tf_start B /\
  meter_goods msp rows tf_cleared c [[A; B]] = [Ok us] /\ meter_goods msp rows tf_cleared c [[A]; [A; B]] = [a0; Ok us'] /\
  length us = 1%nat /\ length us' = 2%nat.
Proof.
  exists 10, steady, 100%nat, (frame 0 20), (frame 20 50), (Ok [mkTF (Some 0) (Some 20) true false true]), [mkTF (Some 0) (Some 40) true false true],
    [mkTF (Some 0) (Some 20) true false true; mkTF (Some 20) (Some 40) true false true].
  split; [exact steady_increasing|]. split; [exact steady_nan_free|]. split; [apply frame_bounded; lia|]. split; [apply frame_bounded; lia|]. split; [reflexivity|].
  split; [vm_compute; reflexivity|]. split; [vm_compute; reflexivity|]. split; reflexivity.
Qed.
Lemma chunk_twice : exists msp rows c A B x y, increasing rows /\ nan_free rows /\ is_bounded A /\ is_bounded B /\
  meter_goods msp rows tf_cleared c [[B]] = [Ok [y]] /\
  (exists a1 a2, meter_goods msp rows tf_cleared c [[A]; [A]; [B]] = [a1; a2; Ok [x; y]]) /\ tf_start x = tf_start y /\ tf_end x = None.
Proof.
  exists 10, steady, 2%nat, (frame 0 220), (frame 0 20), (mkTF (Some 0) None true false false), (mkTF (Some 0) (Some 20) true false true).
  split; [exact steady_increasing|]. split; [exact steady_nan_free|]. split; [apply frame_bounded; lia|]. split; [apply frame_bounded; lia|].
  split; [vm_compute; reflexivity|]. split; [eexists; eexists; vm_compute; reflexivity|]. split; reflexivity.
Qed.
Lemma window_twice : exists msp rows window c A B x y, increasing rows /\ nan_free rows /\ is_bounded A /\ is_bounded B /\
  meter_goods msp rows window c [[B]] = [Ok [y]] /\
  (exists a1 a2, meter_goods msp rows window c [[A]; [A]; [B]] = [a1; a2; Ok [x; y]]) /\ same_ends x y.
Proof.
  exists 10, steady, (frame 0 50), 100%nat, (frame 0 220), (frame 0 50), (mkTF (Some 0) (Some 40) true false false), (mkTF (Some 0) (Some 40) true false true).
  split; [exact steady_increasing|]. split; [exact steady_nan_free|]. split; [apply frame_bounded; lia|]. split; [apply frame_bounded; lia|].
  split; [vm_compute; reflexivity|]. split; [eexists; eexists; vm_compute; reflexivity|]. split; reflexivity.
Qed.

Lemma runs_answered msp rows window m rs last n ss :
  0 <= msp -> increasing rows -> (2 <= length rows)%nat -> nan_free rows -> rows_within window rows m -> (2 <= length m)%nat ->
  runs_of msp (map fst m) rs -> last_of (map fst m) last ->
  (goes_on msp rows last -> tf_end window <> Some last) -> stat_sections rows window = Ok ss ->
  exists b e ts us, (b = true <-> goes_on msp rows last) /\ (b = true -> tf_end window = Some e) /\
    frames_of_runs b false rs ts /\ last_closed e ts us /\
    forall c, (1 <= c)%nat -> meter_goods msp rows window c (repeat ss n) = repeat (Ok us) n.
Proof.
  intros M I L2 N W Lm R La G E. destruct (good_whole msp rows window m rs last M I N W Lm R La G) as (b & e & ts & us & H1 & H2 & H3 & H4 & H5).
  exists b, e, ts, us. split; [exact H1|]. split; [exact H2|]. split; [exact H3|]. split; [exact H4|]. intros c Hc.
  rewrite (whole_answered msp rows window c n ss I L2 Hc E). now rewrite (H5 c Hc).
Qed.
