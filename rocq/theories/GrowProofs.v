(** Lemmas about statistics of a meter whose readings change. *)
From Coq Require Import Sorted Permutation.
From Verif Require Import Base TimeFrameModel TimeFrameSpec TimeFrameProofs SortLib StoreModel StoreSpec StoreProofs StoreProofs2 ResultsModel ResultsSpec ResultsProofs
  GoodSectionsModel GoodSectionsSpec EnergyModel EnergySpec EnergyProofs LoadFrames WholeModel WholeSpec WholeProofs GoodCacheModel GoodCacheSpec GoodCacheProofs GoodCacheProofs2 GoodCacheProofs3 PathProofs GrowModel GrowSpec.
From Verif Require AvgModel CacheModel.
Import List. Open Scope Z_scope.

(** The section of a whole table. *)
Definition whole (f l : Z) : tf := mkTF (Some f) (Some l) true false true.

Lemma whole_stat {A} (rows : list (sample A)) : increasing rows -> (2 <= length rows)%nat ->
  exists f l, first_time rows f /\ last_time rows l /\ f < l /\ stat_sections rows tf_cleared = Ok [whole f l].
Proof.
  intros I L. destruct (table_ends rows I L) as (f & l & F & La & Lt & _ & T). exists f, l. split; [exact F|]. split; [exact La|]. split; [exact Lt|].
  unfold stat_sections. rewrite T. destruct (intersection_inside tf_cleared (mkTF (Some f) (Some l) true false false) f l) as (w & E & W1 & W2 & W3).
  - split; [reflexivity|split; [reflexivity|split; [reflexivity|exact Lt]]].
  - split; [reflexivity|]. split; intros x [=].
  - destruct (intersection_cases tf_cleared (mkTF (Some f) (Some l) true false false)) as [(Em & E2)|[(_ & _ & E2)|(_ & _ & E2)]]; rewrite E2 in *; try discriminate.
    + injection E as <-. discriminate.
    + cbn. reflexivity.
Qed.

Lemma whole_bounded f l : f < l -> bounded (whole f l) f l.
Proof. intros L. split; [reflexivity|split; [reflexivity|split; [reflexivity|exact L]]]. Qed.
Lemma whole_inside f l : inside_window tf_cleared (whole f l).
Proof. split; [reflexivity|]. split; intros x [=]. Qed.

Lemma complete_increasing (rows : readings_t) : increasing rows -> increasing (map AvgModel.complete rows).
Proof.
  induction rows as [|a rows IH]; [exact (fun x => x)|]. destruct rows as [|b rows]; [exact (fun x => x)|].
  intros [H1 H2]. split; [exact H1|]. exact (IH H2).
Qed.

Lemma complete_sections (rows : readings_t) window : stat_sections (map AvgModel.complete rows) window = stat_sections rows window.
Proof.
  assert (L : forall l : readings_t, last_opt (map AvgModel.complete l) = match last_opt l with Some r => Some (AvgModel.complete r) | None => None end).
  { induction l as [|x [|y l] IH]; [reflexivity|reflexivity|]. exact IH. }
  unfold stat_sections, hdf_get_timeframe. destruct rows as [|x rows]; [reflexivity|]. pose proof (L (x :: rows)) as E. cbn [map] in *. rewrite E.
  destruct (last_opt (x :: rows)); reflexivity.
Qed.

(** ** Energies *)

Section Energies.
  Variables (columns : list column) (msp : Z) (load : list tf -> gen (chunk (list (option Z)))) (f l : Z).
  Hypothesis fl : f < l.
  Variable cs : list (chunk (list (option Z))).
  Hypothesis loaded : load [whole f l] = (cs, None).
  Hypothesis chained : chain f (map c_tf cs) l.

  Definition kept_energy (cache : table energies) : Prop :=
    Forall (fun r => exists a b, r_start r = Some a /\ r_end r = Some b /\ b <= l) cache /\
    (cached_rows cache (whole f l) = [] \/ exists r, cached_rows cache (whole f l) = [r] /\ energy_process columns msp (load [whole f l]) = Ok [r]).

  Lemma cached_match (t : table energies) r : In r (cached_rows t (whole f l)) <-> In r t /\ r_start r = Some f /\ r_end r = Some l.
  Proof.
    unfold cached_rows, rows_at. cbn [whole tf_start tf_end tf_start_ tf_end_]. change (tf_start (whole f l)) with (Some f). change (tf_end (whole f l)) with (Some l). rewrite !filter_In.
    split.
    - intros ((I & A) & B). apply oeqb_eq in A. destruct (r_end r) as [x|]; [|discriminate]. apply Z.eqb_eq in B. subst x. auto.
    - intros (I & A & B). rewrite A, B. split; [split; [exact I|apply Z.eqb_refl]|apply Z.eqb_refl].
  Qed.
  Lemma cached_app (a b : table energies) s : cached_rows (a ++ b) s = cached_rows a s ++ cached_rows b s.
  Proof. unfold cached_rows, rows_at. destruct (tf_start s); [|reflexivity]. now rewrite filter_app, filter_app. Qed.

  Lemma computed : exists d, energy_process columns msp (load [whole f l]) = Ok d /\ results_update [] d = (d, None) /\
    Permutation d (map row_of (map (fun ch => (c_tf ch, chunk_value columns msp ch)) cs)).
  Proof.
    rewrite loaded. unfold energy_process. cbn [fst snd]. rewrite energy_process_append.
    set (k := map (fun ch => (c_tf ch, chunk_value columns msp ch)) cs).
    assert (U : Forall (fun p => usable (fst p)) k) by (subst k; apply Forall_map; cbn [fst]; apply Forall_map, (chain_usable _ _ _ chained)).
    assert (D : rows_disjoint (map row_of k)). { apply no_overlap_rows; [exact U|]. subst k. rewrite map_map. cbn [fst]. exact (chain_no_overlap _ _ _ chained). }
    destruct (append_all_outcome k [] U) as (d & E & P & Sd); [constructor|constructor|rewrite app_nil_r; exact D|].
    rewrite app_nil_r in P. exists d. rewrite E. cbn [bind]. split; [reflexivity|]. split; [|exact P]. apply update_nil; [| |exact Sd].
    - apply (Permutation_Forall (Permutation_sym P)). apply Forall_map. eapply Forall_impl; [|exact U]. intros [t v] (_ & O). exact O.
    - eapply rows_disjoint_perm; [|exact D]. exact (Permutation_sym P).
  Qed.

  Lemma exported_one r : CacheModel.energy_export [r] = [r].
  Proof.
    destruct r as [a b [x y z]]. unfold CacheModel.energy_export. cbn [map r_start r_end r_val en_active en_reactive en_apparent]. unfold has_col.
    cbn [existsb r_val en_active en_reactive en_apparent]. destruct x, y, z; reflexivity.
  Qed.
  Lemma exported_in t r : In r (CacheModel.energy_export t) -> exists r', In r' t /\ r_start r = r_start r' /\ r_end r = r_end r'.
  Proof. unfold CacheModel.energy_export. intros I. apply in_map_iff in I. destruct I as (r' & <- & I). exists r'. auto. Qed.

  Lemma new_rows d : energy_process columns msp (load [whole f l]) = Ok d -> Permutation d (map row_of (map (fun ch => (c_tf ch, chunk_value columns msp ch)) cs)) ->
    kept_energy (CacheModel.energy_export d).
  Proof.
    intros E P. assert (C : forall r, In r (CacheModel.energy_export d) -> exists ch, In ch cs /\ r_start r = tf_start (c_tf ch) /\ r_end r = tf_end (c_tf ch)).
    { intros r I. apply exported_in in I. destruct I as (r' & I & A & B). apply (Permutation_in _ P) in I. apply in_map_iff in I. destruct I as ([t v] & <- & I).
      apply in_map_iff in I. destruct I as (ch & [= <- <-] & I). exists ch. auto. }
    split.
    - apply Forall_forall. intros r I. destruct (C r I) as (ch & Ic & A & B). destruct (chain_after _ _ _ (c_tf ch) chained (in_map c_tf _ _ Ic)) as (a & b & (B1 & B2 & _) & _ & L).
      exists a, b. split; [congruence|]. split; [congruence|exact L].
    - destruct (cached_rows (CacheModel.energy_export d) (whole f l)) as [|r m] eqn:G; [left; reflexivity|]. right.
      assert (I : In r (cached_rows (CacheModel.energy_export d) (whole f l))) by (rewrite G; left; reflexivity). apply cached_match in I. destruct I as (I & A & B).
      destruct (C r I) as (ch & Ic & A' & B').
      assert (Q : map c_tf cs = [c_tf ch]) by (apply (chain_alone _ _ _ (c_tf ch) chained (in_map c_tf _ _ Ic)); congruence).
      destruct cs as [|q [|q' ?]]; try discriminate. cbn [map] in P. apply Permutation_sym, Permutation_length_1_inv in P. subst d.
      rewrite exported_one in *. destruct I as [<-|[]]. exists (row_of (c_tf q, chunk_value columns msp q)). split; [|exact E]. rewrite <- G.
      assert (R : cached_rows [row_of (c_tf q, chunk_value columns msp q)] (whole f l) = [row_of (c_tf q, chunk_value columns msp q)]).
      { unfold cached_rows, rows_at. change (tf_start (whole f l)) with (Some f). change (tf_end (whole f l)) with (Some l). cbn [filter]. rewrite A. cbn [oeqb]. rewrite Z.eqb_refl.
        cbn [filter]. rewrite B, Z.eqb_refl. reflexivity. }
      exact R.
  Qed.

  Lemma energy_step cache : kept_energy cache ->
    exists d cache', get_energy columns msp load [whole f l] cache = (Ok d, cache') /\ energy_process columns msp (load [whole f l]) = Ok d /\ kept_energy cache'.
  Proof.
    intros K. destruct computed as (d & E & U & P). pose proof (new_rows d E P) as Kn. exists d. unfold get_energy. cbn [filter whole tf_empty negb]. fold (whole f l).
    destruct K as [K1 [K2|(r & K2 & K3)]].
    - assert (Im : results_import [] cache [whole f l] = []). { unfold results_import. destruct cache; [reflexivity|]. cbn [flat_map]. rewrite K2. reflexivity. }
      rewrite Im. cbn [results_timeframes mapM]. change (CacheModel.missing [whole f l] []) with [whole f l]. cbn iota. rewrite E, U.
      destruct (CacheModel.energy_export d) as [|x m] eqn:X.
      + exists cache. split; [reflexivity|]. split; [reflexivity|]. split; [exact K1|left; exact K2].
      + eexists. split; [reflexivity|]. split; [reflexivity|]. destruct (match cache with [] => true | _ => CacheModel.sc_compat CacheModel.energy_stat cache (x :: m) end); [|exact Kn].
        destruct Kn as [N1 N2]. split; [apply Forall_app; auto|]. rewrite cached_app, K2. exact N2.
    - assert (d = [r]) by congruence. subst d.
      assert (I : In r (cached_rows cache (whole f l))) by (rewrite K2; left; reflexivity). apply cached_match in I. destruct I as (_ & A & B).
      assert (Im : results_import [] cache [whole f l] = [r]). { unfold results_import. destruct cache; [discriminate|]. cbn [flat_map]. rewrite K2. reflexivity. }
      rewrite Im. unfold results_timeframes. cbn [mapM]. unfold row_tf. rewrite A, B. rewrite mk_ok by (intros a b [= <-] [= <-]; exact fl). cbn [bind].
      assert (M : CacheModel.missing [whole f l] [mkTF (Some f) (Some l) true false false] = []).
      { unfold CacheModel.missing. cbn [CacheModel.unique filter existsb]. unfold CacheModel.tf_same at 1. cbn. rewrite !Z.eqb_refl. reflexivity. }
      rewrite M. exists cache. split; [reflexivity|]. split; [exact E|]. split; [exact K1|]. right. exists r. auto.
  Qed.
End Energies.

Definition goods_within (l : Z) (cache : list gs_cached) : Prop := Forall (fun c => exists b, gc_end c = Some b /\ b <= l) cache.

(** What the caches know of the readings [rows]. *)
Definition fresh (columns : list column) (msp : Z) (c : nat) (st : mstate) : Prop :=
  forall f l, first_time (now st) f -> last_time (now st) l ->
    kept_energy columns msp (fun ss => hdf_load (now st) tf_cleared ss 0 c) f l (energy_cache st) /\
    kept msp (fun ss => hdf_load (map AvgModel.complete (now st)) tf_cleared ss 10 c) [whole f l] (good_cache st) /\ goods_within l (good_cache st).

Lemma fresh_nil columns msp c rows : fresh columns msp c (mkState rows [] []).
Proof.
  intros f l F L. cbn. split; [split; [constructor|left; reflexivity]|]. split; [apply kept_nil|constructor].
Qed.

Lemma whole_load_chain {A} (rows : list (sample A)) n c f l : increasing rows -> (2 <= length rows)%nat -> (1 <= c)%nat -> f < l ->
  stat_sections rows tf_cleared = Ok [whole f l] ->
  exists cs, hdf_load rows tf_cleared [whole f l] n c = (cs, None) /\ chain f (map c_tf cs) l.
Proof.
  intros I H2 Hc fl E. destruct (intersection_inside tf_cleared (whole f l) f l (whole_bounded f l fl) (whole_inside f l)) as (w & Ei & W1 & W2 & W3).
  assert (Q : rows_within tf_cleared rows rows). { apply all_within. intros x _. split; [reflexivity|]. split; intros ? [=]. }
  destruct (stat_section rows tf_cleared rows I H2 Q) as [(E0 & _)|(t & w' & x & y & Et & Ei' & _ & _ & P & _)]; [congruence|].
  assert (t = whole f l) by congruence. subst t. assert (w' = w) by congruence. subst w'.
  destruct (section_bounded rows tf_cleared (whole f l) w rows n c I Hc Ei W3) as (_ & _ & S2); [left; congruence|exact P|].
  destruct (S2 H2) as (cs & Ec & _ & s' & e' & Hch & [C1 C2]). exists cs. cbn [hdf_load]. rewrite Ec. cbn [fst snd gen_app]. rewrite app_nil_r. split; [reflexivity|].
  assert (s' = f) by (destruct C1 as [C1|[C1 _]]; congruence). assert (e' = l) by (destruct C2 as [C2|[C2 _]]; congruence). subst s' e'. exact Hch.
Qed.

Lemma ask_energy columns msp c st a : increasing (now st) -> (2 <= length (now st))%nat -> (1 <= c)%nat -> fresh columns msp c st ->
  exists st', do_op columns msp tf_cleared c st (AskEnergy a) = ([Energy (whole_energy columns msp a (now st) tf_cleared c)], st') /\ now st' = now st /\ fresh columns msp c st'.
Proof.
  intros I H2 Hc K. destruct (whole_stat (now st) I H2) as (f & l & F & L & fl & E). destruct (K f l F L) as (KE & KG & KW).
  destruct (whole_load_chain (now st) 0 c f l I H2 Hc fl E) as (cs & Lo & Ch).
  destruct (energy_step columns msp (fun ss => hdf_load (now st) tf_cleared ss 0 c) f l fl cs Lo Ch (energy_cache st) KE) as (d & cache' & G & P & K').
  cbn [do_op]. rewrite E, G. exists (mkState (now st) (good_cache st) cache'). split; [|split; [reflexivity|]].
  - unfold whole_energy. rewrite E. cbn [bind]. rewrite P. reflexivity.
  - intros f' l' F' L'. cbn [now good_cache energy_cache] in *. assert (l' = l) by (exact (last_time_unique _ _ _ L' L)).
    assert (f' = f). { destruct F as (? & ? & A & B), F' as (? & ? & A' & B'). rewrite A in A'. injection A' as <- <-. congruence. }
    subst. auto.
Qed.

Lemma goods_new msp load cs f l d : load [whole f l] = (cs, None) -> chain f (map c_tf cs) l -> gs_process msp (load [whole f l]) = Ok d -> goods_within l (gs_export d).
Proof.
  intros Lo Ch P. unfold goods_within. apply Forall_forall. intros x X. apply exported in X. destruct X as (r & t & R & _ & ->). cbn [gc_end].
  destruct (process_tidy msp (load [whole f l]) d) as [_ F].
  - intros ch I. rewrite Lo in I. destruct (chain_after _ _ _ (c_tf ch) Ch (in_map c_tf _ _ I)) as (a & b & B & _). exists a, b. exact B.
  - exact P.
  - rewrite Forall_forall in F. destruct (F r R) as (ch & I & _ & E2 & _). rewrite Lo in I. destruct (chain_after _ _ _ (c_tf ch) Ch (in_map c_tf _ _ I)) as (a & b & (_ & B & _) & _ & Le).
    exists b. split; [congruence|exact Le].
Qed.

Lemma ask_good columns msp c st : increasing (now st) -> (2 <= length (now st))%nat -> (1 <= c)%nat -> fresh columns msp c st ->
  exists st', do_op columns msp tf_cleared c st AskGood = ([Good (whole_good msp (map AvgModel.complete (now st)) tf_cleared c)], st') /\ now st' = now st /\ fresh columns msp c st'.
Proof.
  intros I H2 Hc K. destruct (whole_stat (now st) I H2) as (f & l & F & L & fl & E). destruct (K f l F L) as (KE & KG & KW).
  set (rows := map AvgModel.complete (now st)) in *.
  assert (Ir : increasing rows) by (apply complete_increasing; exact I). assert (Hr : (2 <= length rows)%nat) by (subst rows; rewrite map_length; exact H2).
  assert (Er : stat_sections rows tf_cleared = Ok [whole f l]) by (subst rows; rewrite complete_sections; exact E).
  destruct (whole_load_chain rows 10 c f l Ir Hr Hc fl Er) as (cs & Lo & Ch).
  destruct (chunks_well_cut rows tf_cleared (whole f l) f l 10 c Ir Hc (whole_bounded f l fl) (whole_inside f l)) as (cs' & Lo' & W).
  assert (cs' = cs) by congruence. subst cs'.
  destruct (step msp (fun ss => hdf_load rows tf_cleared ss 10 c) [whole f l]) with (cache := good_cache st) (s := whole f l) as (cache' & G & K' & D).
  - intros s ch [<-|[]] C. rewrite Lo in C. destruct (W ch C) as ((a & b & B & _) & _). exists a, b. exact B.
  - intros s s' ch [<-|[]] [<-|[]] C SE. rewrite Lo in *. cbn [fst] in *. destruct (W ch C) as (_ & Al). split; [split; reflexivity|]. split; [reflexivity|]. exact (Al SE).
  - exact KG.
  - left. reflexivity.
  - reflexivity.
  - cbn [do_op]. fold rows. rewrite Er, G. exists (mkState (now st) cache' (energy_cache st)). split; [|split; [reflexivity|]].
    + unfold whole_good. rewrite Er. reflexivity.
    + intros f' l' F' L'. cbn [now good_cache energy_cache] in *. assert (l' = l) by (exact (last_time_unique _ _ _ L' L)).
      assert (f' = f). { destruct F as (? & ? & A & B), F' as (? & ? & A' & B'). rewrite A in A'. injection A' as <- <-. congruence. }
      subst. split; [exact KE|]. split; [exact K'|]. destruct D as [->|(d & P & ->)]; [exact KW|]. apply Forall_app. split; [exact KW|].
      exact (goods_new msp (fun ss => hdf_load rows tf_cleared ss 10 c) cs f l d Lo Ch P).
Qed.

Lemma later_last {A} (rows l : list (sample A)) a b : increasing (rows ++ l) -> l <> [] -> last_time rows a -> last_time (rows ++ l) b -> a < b.
Proof.
  intros I N (x & p & E1 & <-) (y & q & E2 & <-). destruct (exists_last N) as (l' & z & ->). rewrite app_assoc in E2. apply app_inj_tail in E2. destruct E2 as [_ <-].
  apply increasing_sorted in I. rewrite E1, <- app_assoc in I. clear - I. induction p as [|w p IH]; cbn [app] in I; apply StronglySorted_inv in I; destruct I as [I F]; [|exact (IH I)].
  rewrite Forall_forall in F. apply (F z). apply in_or_app. right. left. reflexivity.
Qed.

Lemma fresh_append columns msp c st l : increasing (now st ++ l) -> (2 <= length (now st))%nat -> fresh columns msp c st ->
  fresh columns msp c (mkState (now st ++ l) (good_cache st) (energy_cache st)).
Proof.
  intros I H2 K. destruct l as [|x l]; [rewrite app_nil_r; destruct st; exact K|]. intros f' b F' L'. cbn [now good_cache energy_cache] in *.
  assert (N : x :: l <> []) by discriminate.
  assert (I0 : increasing (now st)). { clear - I. induction (now st) as [|a [|b r] IH]; [exact Logic.I|exact Logic.I|]. destruct I as [H1 H2]. split; [exact H1|]. exact (IH H2). }
  destruct (whole_stat (now st) I0 H2) as (f & a & F & L & fl & _). destruct (K f a F L) as ((KE & _) & (KG & _) & KW).
  pose proof (later_last _ _ a b I N L L') as Lt. split; [|split].
  - split; [eapply Forall_impl; [|exact KE]; cbv beta; intros r (u & v & A & B & C); exists u, v; split; [exact A|split; [exact B|lia]]|].
    left. destruct (cached_rows (energy_cache st) (whole f' b)) as [|r m] eqn:G; [reflexivity|exfalso].
    assert (Ir : In r (cached_rows (energy_cache st) (whole f' b))) by (rewrite G; left; reflexivity). apply cached_match in Ir. destruct Ir as (Ir & _ & B).
    rewrite Forall_forall in KE. destruct (KE r Ir) as (u & v & _ & B' & C). assert (v = b) by congruence. lia.
  - split; [exact KG|]. intros s k [<-|[]] [_ K2]. left. destruct (cached_group (good_cache st) k) as [|g m] eqn:G; [reflexivity|exfalso].
    assert (Ig : In g (cached_group (good_cache st) k)) by (rewrite G; left; reflexivity). apply filter_In in Ig. destruct Ig as [Ig Eg]. apply andb_true_iff in Eg. destruct Eg as [_ Eg].
    apply oeqb_eq in Eg. unfold goods_within in KW. rewrite Forall_forall in KW. destruct (KW g Ig) as (v & B & C). change (tf_end (whole f' b)) with (Some b) in K2. assert (v = b) by congruence. lia.
  - eapply Forall_impl; [|exact KW]. cbv beta. intros g (v & A & B). exists v. split; [exact A|lia].
Qed.

Lemma ops_answered columns msp c : (1 <= c)%nat -> forall h st replaced, increasing (now st) -> (2 <= length (now st))%nat ->
  (replaced = false -> fresh columns msp c st) -> orderly replaced (now st) h -> do_ops columns msp tf_cleared c st h = anew columns msp c (now st) h.
Proof.
  intros Hc. induction h as [|o h IH]; intros st rp I H2 K O; [reflexivity|]. destruct o as [l|l| | |a].
  - cbn in O. destruct O as [O1 O2]. cbn [do_ops do_op anew app]. apply (IH (mkState (now st ++ l) (good_cache st) (energy_cache st)) rp); cbn [now]; try assumption.
    + rewrite app_length. lia.
    + intros R. apply fresh_append; auto.
  - cbn in O. destruct O as (O1 & O2 & O3). cbn [do_ops do_op anew app]. apply (IH (mkState l (good_cache st) (energy_cache st)) true); cbn [now]; try assumption. discriminate.
  - cbn in O. cbn [do_ops do_op anew app]. apply (IH (mkState (now st) [] []) false); cbn [now]; try assumption. intros _. apply fresh_nil.
  - cbn in O. destruct O as (-> & O). destruct (ask_good columns msp c st I H2 Hc (K eq_refl)) as (st' & D & N & K'). cbn [do_ops anew]. rewrite D. cbn [app]. f_equal.
    rewrite <- N. apply (IH st' false); rewrite ?N; auto.
  - cbn in O. destruct O as (-> & O). destruct (ask_energy columns msp c st a I H2 Hc (K eq_refl)) as (st' & D & N & K'). cbn [do_ops anew]. rewrite D. cbn [app]. f_equal.
    rewrite <- N. apply (IH st' false); rewrite ?N; auto.
Qed.

Lemma meter_answered columns msp c rows h : increasing rows -> (2 <= length rows)%nat -> (1 <= c)%nat -> orderly false rows h ->
  meter_history columns msp c rows h = anew columns msp c rows h.
Proof. intros I H2 Hc O. apply (ops_answered columns msp c Hc h (mkState rows [] []) false I H2); [intros _; apply fresh_nil|exact O]. Qed.

Lemma anew_app columns msp c : forall h rows o, anew columns msp c rows (h ++ [o]) = anew columns msp c rows h ++ anew columns msp c (rows_after rows h) [o].
Proof. induction h as [|x h IH]; intros rows o; [reflexivity|]. destruct x; cbn [List.app anew rows_after]; rewrite ?IH; reflexivity. Qed.

Lemma orderly_after : forall h rows rp, increasing rows -> (2 <= length rows)%nat -> orderly rp rows h -> increasing (rows_after rows h) /\ (2 <= length (rows_after rows h))%nat.
Proof.
  induction h as [|x h IH]; intros rows rp I H2 O; [auto|]. destruct x; cbn in O; cbn [rows_after].
  - destruct O as [O1 O2]. apply (IH _ rp O1); [rewrite app_length; lia|exact O2].
  - destruct O as (O1 & O2 & O3). exact (IH _ true O1 O2 O3).
  - exact (IH _ false I H2 O).
  - exact (IH _ rp I H2 (proj2 O)).
  - exact (IH _ rp I H2 (proj2 O)).
Qed.
Lemma orderly_app : forall h o rows rp, orderly rp rows (h ++ [o]) -> orderly rp rows h.
Proof.
  induction h as [|x h IH]; intros o rows rp O; [exact Logic.I|]. destruct x; cbn [List.app orderly] in *.
  - split; [tauto|]. eapply IH. apply O.
  - split; [tauto|]. split; [tauto|]. eapply IH. apply O.
  - eapply IH. exact O.
  - split; [tauto|]. eapply IH. apply O.
  - split; [tauto|]. eapply IH. apply O.
Qed.

Lemma always_within {A} (rows : list (sample A)) : rows_within tf_cleared rows rows.
Proof. apply all_within. intros x _. split; [reflexivity|]. split; intros ? [=]. Qed.

Lemma energy_after columns msp c a k rows h s e : 0 <= msp -> uses_column columns a Power k -> increasing rows -> (2 <= length rows)%nat -> (1 <= c)%nat ->
  orderly false rows (h ++ [AskEnergy a]) -> readings k (rows_after rows h) s -> is_energy msp s e ->
  exists before, meter_history columns msp c rows (h ++ [AskEnergy a]) = before ++ [Energy (Ok (Some e))].
Proof.
  intros M U I H2 Hc O R E. rewrite (meter_answered columns msp c rows _ I H2 Hc O), anew_app. destruct (orderly_after h rows false I H2 (orderly_app _ _ _ _ O)) as [I' H2'].
  eexists. f_equal. cbn [anew]. rewrite (energy_whole columns msp a k (rows_after rows h) tf_cleared (rows_after rows h) s e c M U I' Hc (always_within _) H2' R E). reflexivity.
Qed.

Lemma last_of_all (l : list Z) x : increasing_times l -> last_of l x -> forall y, In y l -> y <= x.
Proof.
  revert x. induction l as [|a [|b l] IH]; intros x I L y Y; [destruct Y| |].
  - destruct Y as [<-|[]]. destruct L as (q & L). destruct q as [|? [|? ?]]; cbn in L; try discriminate. injection L as <-. lia.
  - destruct L as (q & L). destruct q as [|z q]; [discriminate|]. cbn in L. injection L as <- L. destruct I as [I1 I2].
    assert (K : last_of (b :: l) x) by (exists q; exact L). destruct Y as [<-|Y]; [|exact (IH x I2 K y Y)].
    specialize (IH x I2 K b (or_introl eq_refl)). lia.
Qed.

Lemma good_after columns msp c rows h rs : 0 <= msp -> increasing rows -> (2 <= length rows)%nat -> (1 <= c)%nat ->
  orderly false rows (h ++ [AskGood]) -> nan_free (map AvgModel.complete (rows_after rows h)) -> runs_of msp (map fst (rows_after rows h)) rs ->
  exists e ts us before, frames_of_runs false false rs ts /\ last_closed e ts us /\
    meter_history columns msp c rows (h ++ [AskGood]) = before ++ [Good (Ok us)].
Proof.
  intros M I H2 Hc O N R. rewrite (meter_answered columns msp c rows _ I H2 Hc O), anew_app. destruct (orderly_after h rows false I H2 (orderly_app _ _ _ _ O)) as [I' H2'].
  set (r := rows_after rows h) in *. set (q := map AvgModel.complete r) in *.
  assert (T : map fst q = map fst r) by (subst q; rewrite map_map; reflexivity). assert (Lq : (2 <= length q)%nat) by (subst q; rewrite map_length; exact H2').
  assert (Iq : increasing q) by (apply complete_increasing; exact I').
  destruct (exists_last (l := map fst q)) as (p & last & La); [intros Q; apply map_eq_nil in Q; rewrite Q in Lq; cbn in Lq; lia|].
  assert (L1 : last_of (map fst q) last) by (exists p; exact La).
  assert (G : ~ goes_on msp q last).
  { intros (x & X & _ & B). assert (IT : increasing_times (map fst q)). { clear - Iq. induction q as [|u [|v q] IH]; [exact Logic.I|exact Logic.I|]. destruct Iq as [A B]. split; [exact A|exact (IH B)]. }
    pose proof (last_of_all _ _ IT L1 (fst x) (in_map fst _ _ X)). lia. }
  destruct (good_whole msp q tf_cleared q rs last M Iq N (always_within _) Lq) as (b & e & ts & us & H1 & _ & H3 & H4 & H5); [rewrite T; exact R|exact L1|intros K; contradiction|].
  assert (b = false) by (destruct b; [exfalso; apply G, H1; reflexivity|reflexivity]). subst b.
  exists e, ts, us. eexists. split; [exact H3|]. split; [exact H4|]. f_equal. cbn [anew]. fold r. fold q. rewrite (H5 c Hc). reflexivity.
Qed.
Lemma no_missing_nan rows : no_missing rows -> nan_free (map AvgModel.complete rows).
Proof.
  intros H. unfold nan_free. apply Forall_map. eapply Forall_impl; [|exact H]. cbv beta. intros r R. unfold AvgModel.complete. cbn [snd]. apply forallb_forall.
  intros o O. rewrite Forall_forall in R. specialize (R o O). destruct o; [reflexivity|congruence].
Qed.
Lemma goods_after columns msp c rows h rs : 0 <= msp -> increasing rows -> (2 <= length rows)%nat -> (1 <= c)%nat ->
  orderly false rows (h ++ [AskGood]) -> no_missing (rows_after rows h) -> runs_of msp (map fst (rows_after rows h)) rs ->
  exists e ts us before, frames_of_runs false false rs ts /\ last_closed e ts us /\
    meter_history columns msp c rows (h ++ [AskGood]) = before ++ [Good (Ok us)].
Proof. intros M I H2 Hc O N R. apply good_after; try assumption. apply no_missing_nan. exact N. Qed.

Definition power : list column := [(Power, Some Active)].
Definition at_power (l : list (Z * Z)) : readings_t := map (fun p => (fst p, [Some (snd p)])) l.

Lemma replaced_stale : exists columns msp a rows l c v w, increasing rows /\ increasing l /\ (2 <= length rows)%nat /\ (2 <= length l)%nat /\
  meter_history columns msp c rows [AskEnergy a; Put l; AskEnergy a] = [Energy (Ok (Some v)); Energy (Ok (Some v))] /\
  whole_energy columns msp a l tf_cleared c = Ok (Some w) /\ v <> w.
Proof.
  exists power, 10, Active, (at_power [(0, 1); (10, 1); (20, 1)]), (at_power [(0, 500); (10, 500); (20, 500)]), 100%nat, 20, 10000.
  split; [cbn; lia|]. split; [cbn; lia|]. split; [cbn; lia|]. split; [cbn; lia|]. split; [vm_compute; reflexivity|]. split; [vm_compute; reflexivity|lia].
Qed.
Lemma replaced_stale_good : exists columns msp rows l c v w, increasing rows /\ increasing l /\ (2 <= length rows)%nat /\ (2 <= length l)%nat /\
  meter_history columns msp c rows [AskGood; Put l; AskGood] = [Good (Ok v); Good (Ok v)] /\
  whole_good msp (map AvgModel.complete l) tf_cleared c = Ok w /\ length v = 1%nat /\ length w = 2%nat.
Proof.
  exists power, 10, (at_power [(0, 1); (10, 1); (20, 1); (30, 1); (40, 1); (50, 1)]), (at_power [(0, 1); (10, 1); (40, 1); (50, 1)]), 100%nat,
    [mkTF (Some 0) (Some 50) true false true], [mkTF (Some 0) (Some 10) true false false; mkTF (Some 40) (Some 50) true false true].
  split; [cbn; lia|]. split; [cbn; lia|]. split; [cbn; lia|]. split; [cbn; lia|]. split; [vm_compute; reflexivity|]. split; [vm_compute; reflexivity|]. split; reflexivity.
Qed.
Lemma section_stale : exists columns msp a rows l s c d cache v d' w, increasing (rows ++ l) /\ is_bounded s /\
  get_energy columns msp (fun ss => hdf_load rows tf_cleared ss 0 c) [s] [] = (Ok d, cache) /\
  get_energy columns msp (fun ss => hdf_load (rows ++ l) tf_cleared ss 0 c) [s] cache = (Ok d, cache) /\ energy_entry a d = Some v /\
  energy_process columns msp (hdf_load (rows ++ l) tf_cleared [s] 0 c) = Ok d' /\ energy_entry a d' = Some w /\ v <> w.
Proof.
  set (d := [mkRow (Some 0) (Some 100) (mkEn (Some 20) None None)]).
  exists power, 10, Active, (at_power [(0, 1); (10, 1); (20, 1)]), (at_power [(30, 500); (40, 500)]), (mkTF (Some 0) (Some 100) true false false), 100%nat, d, d, 20,
    [mkRow (Some 0) (Some 100) (mkEn (Some 5030) None None)], 5030.
  split; [cbn; lia|]. split; [exists 0, 100; split; [reflexivity|split; [reflexivity|split; [reflexivity|lia]]]|].
  split; [vm_compute; reflexivity|]. split; [vm_compute; reflexivity|]. split; [reflexivity|]. split; [vm_compute; reflexivity|]. split; [reflexivity|lia].
Qed.
