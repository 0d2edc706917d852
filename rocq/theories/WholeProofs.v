(** Proofs about statistics of a whole meter. *)
From Coq Require Import QArith Qminmax Permutation Sorted.
From Verif Require Import Base TimeFrameModel TimeFrameSpec TimeFrameProofs StoreModel StoreSpec StoreProofs StoreProofs2 ResultsModel ResultsSpec ResultsProofs
  GoodSectionsModel GoodSectionsSpec EnergyModel EnergySpec EnergyProofs LoadFrames EnergyProofs2 DropoutProofs GoodSectionsProofs GoodSectionsProofs2 GoodSectionsProofs3 WholeModel WholeSpec.
Open Scope Z_scope.

Lemma filter_ext_in {A} (P Q : A -> Prop) l m : (forall x, In x l -> (P x <-> Q x)) -> is_filter P l m -> is_filter Q l m.
Proof.
  intros H F. induction F as [|x l m Hx F IH|x l m Hx F IH]; constructor.
  - apply H; [left; reflexivity|exact Hx].
  - apply IH. intros y Hy. apply H. right. exact Hy.
  - intros K. apply Hx. apply H; [left; reflexivity|exact K].
  - apply IH. intros y Hy. apply H. right. exact Hy.
Qed.

Lemma last_time_unique {A} (rows : list (sample A)) x y : last_time rows x -> last_time rows y -> x = y.
Proof. intros (p & q & E1 & E2) (p' & q' & E3 & E4). rewrite E1 in E3. apply app_inj_tail in E3. destruct E3 as [_ <-]. congruence. Qed.

(** First and last instants of a table. *)
Lemma table_ends {A} (rows : list (sample A)) : increasing rows -> (2 <= length rows)%nat ->
  exists s e, first_time rows s /\ last_time rows e /\ s < e /\ (forall r, In r rows -> s <= fst r <= e) /\
    (forall window, hdf_get_timeframe rows window = intersection window (mkTF (Some s) (Some e) true false false)).
Proof.
  intros Hinc Hlen. apply increasing_sorted in Hinc.
  destruct rows as [|x r1]; [simpl in Hlen; lia|].
  destruct (last_opt_some x r1) as [z Hz].
  assert (Hr1 : r1 <> []) by (destruct r1; [simpl in Hlen; lia|discriminate]).
  pose proof (last_in_tail x r1 z Hz Hinc Hr1) as Hxz.
  exists (fst x), (fst z). split; [exists x, r1; split; reflexivity|].
  split.
  { assert (Hne : x :: r1 <> []) by discriminate. destruct (exists_last Hne) as (q & z' & E).
    rewrite E in *. rewrite last_opt_snoc in Hz. injection Hz as ->. exists z, q. split; reflexivity. }
  split; [exact Hxz|]. split.
  - intros r Hr. assert (Hne : x :: r1 <> []) by discriminate. destruct (exists_last Hne) as (q & z' & E).
    pose proof Hinc as H1. rewrite E in *. rewrite last_opt_snoc in Hz. injection Hz as ->.
    split.
    + rewrite <- E in *. apply StronglySorted_inv in Hinc. destruct Hinc as [_ Hinc]. rewrite Forall_forall in Hinc.
      destruct Hr as [<-|Hr]; [lia|]. specialize (Hinc _ Hr). unfold slt in Hinc. lia.
    + apply in_app_or in Hr. destruct Hr as [Hr|[<-|[]]]; [|lia]. apply sorted_app in H1. destruct H1 as (_ & _ & H1).
      specialize (H1 r z Hr (or_introl eq_refl)). unfold slt in H1. lia.
  - intros window. unfold hdf_get_timeframe. rewrite Hz. rewrite mk_ok; [reflexivity|]. intros a b [= <-] [= <-]. exact Hxz.
Qed.

Lemma stat_section {A} (rows : list (sample A)) window m : increasing rows -> (2 <= length rows)%nat -> rows_within window rows m ->
  (stat_sections rows window = Ok [] /\ (length m < 2)%nat) \/
  exists t w s e, stat_sections rows window = Ok [t] /\ intersection window t = Ok w /\
    w = mkTF (Some s) (Some e) true false true /\ s < e /\ rows_of_period w rows m /\
    (forall b, tf_end window = Some b -> e <= b) /\ (forall l, last_time rows l -> e <= l) /\ (last_time rows e \/ tf_end window = Some e).
Proof.
  intros Hinc Hlen Hm. destruct (table_ends rows Hinc Hlen) as (f & l & Hf & Hl & Hfl & Hin & Htf).
  unfold stat_sections. rewrite Htf. set (tab := mkTF (Some f) (Some l) true false false).
  pose proof (is_filter_sorted _ _ _ Hm (proj1 (increasing_sorted rows) Hinc)) as Hsm.
  assert (Two : (2 <= length m)%nat -> exists p q, In p m /\ In q m /\ fst p < fst q).
  { intros L. destruct m as [|p [|q m']]; cbn in L; try lia. exists p, q. split; [left; reflexivity|]. split; [right; left; reflexivity|].
    apply StronglySorted_inv in Hsm. destruct Hsm as [_ Hsm]. apply Forall_inv in Hsm. exact Hsm. }
  assert (Hmin : forall r, In r m -> f <= fst r <= l /\ within window (fst r)).
  { intros r Hr. apply (is_filter_in _ _ _ _ Hm) in Hr. destruct Hr as [R1 R2]. split; [apply Hin; exact R1|exact R2]. }
  destruct (intersection_cases window tab) as [(Em & E')|[(Em & (s & e & Es & Ee & Hse) & E')|(Em & Hse & E')]]; rewrite E'; cbn [bind set_incl filter tf_empty negb tf_start_ tf_end_ tf_enabled].
  - left. split; [reflexivity|]. destruct (Nat.le_gt_cases 2 (length m)) as [L|L]; [exfalso|exact L].
    destruct (Two L) as (p & q & P & _). destruct (Hmin p P) as (_ & W & _). cbn in Em. rewrite W in Em. discriminate.
  - left. split; [reflexivity|]. destruct (Nat.le_gt_cases 2 (length m)) as [L|L]; [exfalso|exact L].
    destruct (Two L) as (p & q & P & Q & PQ). destruct (Hmin p P) as (P1 & _ & P2 & _). destruct (Hmin q Q) as (Q1 & _ & _ & Q2).
    assert (s <= fst p). { apply (proj2 (isect_start_le window tab (fst p))); [|exact Es]. split; [exact P2|]. intros s' [= <-]. lia. }
    assert (fst q <= e); [|lia]. unfold isect_end in Ee. destruct (tf_end window) as [b|]; injection Ee as <-; try (specialize (Q2 _ eq_refl)); cbn; lia.
  - right.
    assert (Es : exists s, isect_start window tab = Some s /\ (forall i, f <= i -> (s <= i <-> forall s', tf_start window = Some s' -> s' <= i))).
    { unfold isect_start. change (tf_start tab) with (Some f). destruct (tf_start window) as [a|].
      - eexists. split; [reflexivity|]. intros i Hi. split; [intros K s' [= <-]; lia|intros K; specialize (K _ eq_refl); lia].
      - eexists. split; [reflexivity|]. intros i Hi. split; [discriminate|intros _; exact Hi]. }
    assert (Ee : exists e, isect_end window tab = Some e /\ (forall i, i <= l -> (i <= e <-> forall s', tf_end window = Some s' -> i <= s')) /\
               (forall b, tf_end window = Some b -> e <= b) /\ (e <= l /\ (e = l \/ tf_end window = Some e))).
    { unfold isect_end. change (tf_end tab) with (Some l). destruct (tf_end window) as [a|].
      - eexists. split; [reflexivity|]. split; [intros i Hi; split; [intros K s' [= <-]; lia|intros K; specialize (K _ eq_refl); lia]|].
        split; [intros b [= <-]; lia|]. split; [lia|]. destruct (Z.min_dec l a) as [M|M]; destruct (Z.min_dec a l) as [M'|M']; first [left; lia|right; f_equal; lia].
      - eexists. split; [reflexivity|]. split; [intros i Hi; split; [discriminate|intros _; exact Hi]|]. split; [discriminate|]. split; [lia|left; reflexivity]. }
    destruct Es as (s & Es & Hs). destruct Ee as (e & Ee & He & He2 & He4 & He3). specialize (Hse _ _ Es Ee). rewrite Es, Ee in *.
    set (t := mkTF (Some s) (Some e) true false true).
    assert (Eit : intersection window t = Ok t).
    { assert (Es2 : isect_start window t = Some s).
      { clear - Es. unfold isect_start in *. change (tf_start t) with (Some s). change (tf_start tab) with (Some f) in Es.
        destruct (tf_start window); injection Es as <-; f_equal; lia. }
      assert (Ee2 : isect_end window t = Some e).
      { clear - Ee. unfold isect_end in *. change (tf_end t) with (Some e). change (tf_end tab) with (Some l) in Ee.
        destruct (tf_end window); injection Ee as <-; f_equal; lia. }
      destruct (intersection_cases window t) as [(Em2 & _)|[(_ & (s2 & e2 & A1 & A2 & A3) & _)|(_ & _ & E2)]].
      - cbn in Em, Em2. rewrite Em in Em2. discriminate.
      - rewrite Es2 in A1. rewrite Ee2 in A2. injection A1 as <-. injection A2 as <-. lia.
      - rewrite E2, Es2, Ee2. unfold isect_incl. rewrite Ee2. change (tf_end t) with (Some e). cbn. rewrite Z.eqb_refl. reflexivity. }
    exists t, t, s, e. split; [reflexivity|]. split; [exact Eit|]. split; [reflexivity|]. split; [exact Hse|].
    split; [|split; [exact He2|split; [intros l' Hl'; rewrite (last_time_unique _ _ _ Hl' Hl); exact He4|]; destruct He3 as [->|He3]; [left; exact Hl|right; exact He3]]].
    unfold rows_of_period. apply (filter_ext_in (fun r => within window (fst r))); [|exact Hm].
    intros x Hx. specialize (Hin x Hx). unfold within, inTFc. cbn in Em. rewrite orb_false_r in Em. rewrite Em.
    change (tf_empty t) with false. change (tf_start t) with (Some s). change (tf_end t) with (Some e). change (tf_incl t) with true.
    split.
    + intros (_ & W1 & W2). split; [reflexivity|]. split.
      * intros s' [= <-]. apply (Hs (fst x)); [lia|exact W1].
      * intros e' [= <-]. assert (fst x <= e) by (apply (He (fst x)); [lia|exact W2]). assert (D : fst x < e \/ fst x = e) by lia. destruct D; auto.
    + intros (_ & W1 & W2). specialize (W1 _ eq_refl). specialize (W2 _ eq_refl). split; [reflexivity|]. split.
      * apply (Hs (fst x)); lia.
      * apply (He (fst x)); lia.
Qed.

(** What is loaded for such a statistic. *)
Lemma whole_load {A} (rows : list (sample A)) window m n c : increasing rows -> (2 <= length rows)%nat -> (1 <= c)%nat -> rows_within window rows m ->
  exists ss, stat_sections rows window = Ok ss /\
  ((2 <= length m)%nat -> exists cs s e, hdf_load rows window ss n c = (cs, None) /\ delivers cs m c /\ chain s (map c_tf cs) e /\
      (forall b, tf_end window = Some b -> e <= b) /\ (forall l, last_time rows l -> e <= l) /\ (last_time rows e \/ tf_end window = Some e)) /\
  ((length m < 2)%nat -> exists cs, hdf_load rows window ss n c = (cs, None) /\ (cs = [] \/ m = [] /\ exists w, cs = [mkChunk [] None w] /\ usable w)).
Proof.
  intros Hinc Hlen Hc Hm. destruct (stat_section rows window m Hinc Hlen Hm) as [(E & L)|(t & w & s & e & E & Ei & Ew & Hse & Hp & H1 & H2 & H3)].
  - exists []. split; [exact E|]. split; [lia|]. intros _. exists []. split; [reflexivity|left; reflexivity].
  - exists [t]. split; [exact E|].
    destruct (section_bounded rows window t w m n c Hinc Hc Ei) as (S0 & S1 & S2); [subst w; reflexivity|left; subst w; discriminate|exact Hp|].
    cbn [hdf_load]. split.
    + intros L. destruct (S2 L) as (cs & Ec & Hd & s' & e' & Hch & [_ Hce]). exists cs, s', e'. rewrite Ec. unfold gen_app. cbn [fst snd]. rewrite app_nil_r.
      split; [reflexivity|]. split; [exact Hd|]. split; [exact Hch|].
      assert (e' = e) by (subst w; destruct Hce as [[= ->]|[Hce _]]; [reflexivity|discriminate]). subst e'. auto.
    + intros L. destruct m as [|x [|y m]]; cbn in L; try lia.
      * rewrite (S0 eq_refl). eexists. split; [reflexivity|]. right. split; [reflexivity|]. exists w. split; [reflexivity|].
        subst w. split; [reflexivity|]. intros a b [= <-] [= <-]. lia.
      * rewrite (S1 eq_refl). eexists. split; [reflexivity|]. left. reflexivity.
Qed.

(** ** Energy *)

Lemma process_rows columns msp cs : Forall (fun ch => usable (c_tf ch)) cs -> no_overlap (map c_tf cs) ->
  exists d, energy_process columns msp (cs, None) = Ok d /\ Permutation d (map row_of (map (fun ch => (c_tf ch, chunk_value columns msp ch)) cs)).
Proof.
  intros HU HN. unfold energy_process. cbn [fst snd]. rewrite energy_process_append.
  set (l := map (fun ch => (c_tf ch, chunk_value columns msp ch)) cs).
  assert (HU' : Forall (fun p => usable (fst p)) l) by (subst l; apply Forall_map; exact HU).
  destruct (append_all_outcome l [] HU') as (d & E & Hp & _).
  - constructor.
  - constructor.
  - rewrite app_nil_r. apply no_overlap_rows; [exact HU'|]. subst l. rewrite map_map. cbn [fst]. exact HN.
  - exists d. rewrite E. cbn [bind]. rewrite app_nil_r in Hp. split; [reflexivity|exact Hp].
Qed.

Lemma has_col_perm a d d' : Permutation d d' -> has_col (en_get a) d = has_col (en_get a) d'.
Proof.
  intros H. apply eq_true_iff_eq. unfold has_col. rewrite !existsb_exists.
  split; intros (x & X & Y); exists x; (split; [|exact Y]); [|apply Permutation_sym in H]; exact (Permutation_in _ H X).
Qed.

Lemma energy_any columns msp a k rows window m csize : 0 <= msp -> uses_column columns a Power k -> increasing rows -> (2 <= length rows)%nat ->
  (1 <= csize)%nat -> rows_within window rows m -> Forall (has_reading k) m ->
  ((2 <= length m)%nat -> whole_energy columns msp a rows window csize = Ok (Some (joules (dropna (map (rd k) m)) msp))) /\
  ((length m < 2)%nat -> whole_energy columns msp a rows window csize = Ok None).
Proof.
  intros Hm HU Hinc Hlen Hc Hw Hr. destruct (whole_load rows window m 0 csize Hinc Hlen Hc Hw) as (ss & Es & S2 & S1).
  unfold whole_energy. rewrite Es. cbn [bind]. split; intros L.
  - destruct (S2 L) as (cs & s & e & El & Hd & Hch & _). rewrite El.
    destruct (process_rows columns msp cs) as (d & Ed & Hp); [apply Forall_map, (chain_usable _ _ _ Hch)|exact (chain_no_overlap _ _ _ Hch)|].
    rewrite Ed. cbn [bind].
    assert (Hne : m <> []) by (intros ->; cbn in L; lia).
    assert (HC : has_col (en_get a) d = true).
    { rewrite (has_col_perm a _ _ Hp). destruct Hd as (Eu & _ & Hsz). destruct cs as [|ch cs]; [cbn in Eu; congruence|].
      apply Forall_cons_iff in Hsz. destruct Hsz as [Hsz _]. assert (c_rows ch <> []) by (intros E0; rewrite E0 in Hsz; cbn in Hsz; lia).
      unfold has_col. cbn [map existsb row_of fst snd r_val]. apply orb_true_iff. left. unfold chunk_value.
      destruct (total_energy_ok columns (c_rows ch) msp) as (v & E & Hv). rewrite E. specialize (Hv a).
      assert (Ecl : match c_rows ch with [] => [] | _ => columns end = columns) by (destruct (c_rows ch); [contradiction|reflexivity]).
      rewrite Ecl, (energy_of_type_uses _ _ msp _ _ _ HU H) in Hv. injection Hv as <-. reflexivity. }
    rewrite HC. do 2 f_equal. rewrite osum_sum, map_map.
    rewrite (sumZ_perm _ (map (fun r => z_of (en_get a (r_val r))) (map row_of (map (fun ch => (c_tf ch, chunk_value columns msp ch)) cs)))) by (apply Permutation_map; exact Hp).
    rewrite !map_map. cbn [row_of r_val snd]. rewrite (map_ext _ (fun ch => part columns msp a (c_rows ch))) by (intros; apply part_chunk).
    assert (Q1 : section_served csize m cs) by (split; [contradiction|intros _; exact Hd]).
    rewrite (delivered_sum columns msp a (fun _ => 0) (has_reading k) csize cs m (part_power_app _ _ _ _ HU) Q1).
    2:{ apply Forall_tl. eapply served_first; [exact Q1|]. exact Hr. }
    assert (Z0 : forall l : list (chunk (list (option Z))), sumZ (map (fun ch => match c_rows ch with _ :: _ => 0 | [] => 0 end) l) = 0).
    { clear. induction l as [|ch l IH]; [reflexivity|]. cbn [map sumZ]. rewrite IH. destruct (c_rows ch); reflexivity. }
    rewrite Z0, Z.add_0_r. apply (part_uses _ _ _ _ _ _ HU).
  - destruct (S1 L) as (cs & El & [->|(_ & w & -> & Hu)]); rewrite El; [reflexivity|].
    destruct (process_rows columns msp [mkChunk [] None w]) as (d & Ed & Hp); [constructor; [exact Hu|constructor]| |].
    + intros i j p q x Hi Hj Hp Hq. destruct i as [|[|i]], j as [|[|j]]; cbn in Hi, Hj; congruence.
    + rewrite Ed. cbn [bind]. rewrite (has_col_perm a _ _ Hp). destruct a; reflexivity.
Qed.

Lemma energy_whole columns msp a k rows window m s e csize : 0 <= msp -> uses_column columns a Power k -> increasing rows ->
  (1 <= csize)%nat -> rows_within window rows m -> (2 <= length m)%nat -> readings k m s -> is_energy msp s e ->
  whole_energy columns msp a rows window csize = Ok (Some e).
Proof.
  intros Hm HU Hinc Hc Hw L Hr He.
  assert (Hlen : (2 <= length rows)%nat).
  { assert (length m <= length rows)%nat; [|lia]. clear -Hw. induction Hw; cbn; lia. }
  rewrite (proj1 (energy_any columns msp a k rows window m csize Hm HU Hinc Hlen Hc Hw (readings_has _ _ _ Hr)) L).
  do 2 f_equal. rewrite (readings_rd _ _ _ Hr), dropna_some. apply (is_energy_unique msp s); [|exact He]. apply joules_is_energy; [exact Hm|].
  eapply readings_increasing; [exact Hr|]. eapply is_filter_increasing; [exact Hw|exact Hinc].
Qed.

Lemma few_load {A} (rows : list (sample A)) window m n c : increasing rows -> (2 <= length rows)%nat -> (1 <= c)%nat -> rows_within window rows m ->
  (length m < 2)%nat -> exists ss cs, stat_sections rows window = Ok ss /\ hdf_load rows window ss n c = (cs, None) /\ (cs = [] \/ m = [] /\ exists w, cs = [mkChunk [] None w] /\ usable w).
Proof.
  intros Hinc Hlen Hc Hw L. destruct (whole_load rows window m n c Hinc Hlen Hc Hw) as (ss & Es & _ & S1).
  destruct (S1 L) as (cs & E1 & E2). exists ss, cs. auto.
Qed.

Lemma energy_few columns msp a rows window m csize : increasing rows -> (2 <= length rows)%nat ->
  (1 <= csize)%nat -> rows_within window rows m -> (length m < 2)%nat -> whole_energy columns msp a rows window csize = Ok None.
Proof.
  intros Hinc Hlen Hc Hw L. destruct (few_load rows window m 0 csize Hinc Hlen Hc Hw L) as (ss & cs & Es & El & Hcs).
  unfold whole_energy. rewrite Es. cbn [bind]. rewrite El. destruct Hcs as [->|(_ & w & -> & Hu)]; [reflexivity|].
  destruct (process_rows columns msp [mkChunk [] None w]) as (d & Ed & Hp); [constructor; [exact Hu|constructor]| |].
  - intros i j p q x Hi Hj Hp Hq. destruct i as [|[|i]], j as [|[|j]]; cbn in Hi, Hj; congruence.
  - rewrite Ed. cbn [bind]. rewrite (has_col_perm a _ _ Hp). destruct a; reflexivity.
Qed.

(** ** Two windows that meet *)

Lemma filter_refine {A} (P Q : A -> Prop) f (l m : list A) : (forall x, Q x <-> P x /\ f x = true) -> is_filter P l m -> is_filter Q l (filter f m).
Proof.
  intros H F. induction F as [|x l m Hx F IH|x l m Hx F IH]; cbn [filter].
  - constructor.
  - destruct (f x) eqn:E; constructor; auto.
    + apply H. auto.
    + intros K. apply H in K. destruct K. congruence.
  - constructor; [|exact IH]. intros K. apply H in K. tauto.
Qed.

Lemma cut_at {A} b (m : list (sample A)) : StronglySorted slt m ->
  (~ In b (map fst m) /\ m = filter (fun r => fst r <=? b) m ++ filter (fun r => b <=? fst r) m) \/
  (exists p x q, fst x = b /\ filter (fun r => fst r <=? b) m = p ++ [x] /\ filter (fun r => b <=? fst r) m = x :: q /\ m = p ++ x :: q).
Proof.
  induction m as [|y m IH]; intros HS; [left; split; [intros []|reflexivity]|]. apply StronglySorted_inv in HS. destruct HS as [HS HF].
  assert (Hall : b <= fst y -> filter (fun r => b <=? fst r) m = m /\ filter (fun r => fst r <=? b) m = [] /\ ~ In b (map fst m)).
  { intros Hy. clear IH HS. induction m as [|z m IH2]; [repeat split; intros []|]. apply Forall_cons_iff in HF. destruct HF as [F1 F2]. unfold slt in F1.
    destruct (IH2 F2) as (I1 & I2 & I3). cbn [filter map]. replace (b <=? fst z) with true by lia. replace (fst z <=? b) with false by lia.
    rewrite I1, I2. repeat split. intros [E|E]; [lia|exact (I3 E)]. }
  destruct (Z.lt_trichotomy (fst y) b) as [H|[H|H]]; cbn [filter map].
  - replace (fst y <=? b) with true by lia. replace (b <=? fst y) with false by lia. destruct (IH HS) as [(I1 & I2)|(p & x & q & I1 & I2 & I3 & I4)].
    + left. split; [intros [E|E]; [lia|exact (I1 E)]|]. cbn [app]. f_equal. exact I2.
    + right. exists (y :: p), x, q. rewrite I2, I3. repeat split; [exact I1|]. cbn [app]. f_equal. exact I4.
  - replace (fst y <=? b) with true by lia. replace (b <=? fst y) with true by lia. destruct (Hall ltac:(lia)) as (A1 & A2 & _).
    right. exists [], y, m. rewrite A1, A2. repeat split. exact H.
  - replace (fst y <=? b) with false by lia. replace (b <=? fst y) with true by lia. destruct (Hall ltac:(lia)) as (A1 & A2 & A3).
    left. split; [intros [E|E]; [lia|exact (A3 E)]|]. rewrite A1, A2. reflexivity.
Qed.

Lemma rd_increasing k (l : list (sample (list (option Z)))) : increasing l -> increasing (map (rd k) l).
Proof.
  induction l as [|y [|z l] IH]; intros H; [exact I|exact I|].
  cbn [map increasing rd fst] in *. destruct H as [H1 H2]. split; [exact H1|]. apply IH. exact H2.
Qed.

Lemma dropna_nonneg k (l : list (sample (list (option Z)))) : Forall (fun r => forall v, nth k (snd r) None = Some v -> 0 <= v) l ->
  Forall (fun x => 0 <= snd x) (dropna (map (rd k) l)).
Proof.
  induction l as [|y l IH]; intros H; [constructor|]. apply Forall_cons_iff in H. destruct H as [H1 H2].
  cbn [map]. unfold rd at 1. destruct (nth k (snd y) None) as [u|] eqn:E; cbn [dropna]; [constructor; [exact (H1 u eq_refl)|]|]; apply IH; exact H2.
Qed.

Lemma joules_few k msp (m : list (sample (list (option Z)))) : (length m < 2)%nat -> joules (dropna (map (rd k) m)) msp = 0.
Proof. destruct m as [|y [|z m]]; cbn [length map]; intros H; [reflexivity| |lia]. unfold rd. destruct (nth k (snd y) None); reflexivity. Qed.

Lemma energy_split columns msp a k rows lo b hi w1 w2 w c1 c2 c3 :
  0 <= msp -> uses_column columns a Power k -> increasing rows -> (2 <= length rows)%nat ->
  Forall (has_reading k) rows -> Forall (fun r => forall v, nth k (snd r) None = Some v -> 0 <= v) rows ->
  window_of lo (Some b) w1 -> window_of (Some b) hi w2 -> window_of lo hi w ->
  (forall x, lo = Some x -> x <= b) -> (forall x, hi = Some x -> b <= x) ->
  (1 <= c1)%nat -> (1 <= c2)%nat -> (1 <= c3)%nat ->
  exists o1 o2 o, whole_energy columns msp a rows w1 c1 = Ok o1 /\ whole_energy columns msp a rows w2 c2 = Ok o2 /\
    whole_energy columns msp a rows w c3 = Ok o /\ energy_value o1 + energy_value o2 <= energy_value o /\
    (In b (map fst rows) -> energy_value o1 + energy_value o2 = energy_value o).
Proof.
  intros Hm HU Hinc Hlen Hr Hpos (W1 & W2 & W3) (V1 & V2 & V3) (U1 & U2 & U3) Hlo Hhi H1 H2 H3.
  destruct (is_filter_exists (fun r : sample (list (option Z)) => within w (fst r)) rows) as (m & Fm).
  { intros x. unfold within. rewrite U1, U2, U3.
    destruct lo as [l|], hi as [h|]; [destruct (Z_le_gt_dec l (fst x)), (Z_le_gt_dec (fst x) h)|destruct (Z_le_gt_dec l (fst x))|destruct (Z_le_gt_dec (fst x) h)|];
    first [left; (repeat split); [intros ? [= <-]; lia|intros ? [= <-]; lia] | left; (repeat split); [intros ? [= <-]; lia|discriminate]
          | left; (repeat split); [discriminate|intros ? [= <-]; lia] | left; (repeat split); discriminate
          | right; intros (_ & K1 & K2); try specialize (K1 _ eq_refl); try specialize (K2 _ eq_refl); lia]. }
  assert (F1 : rows_within w1 rows (filter (fun r => fst r <=? b) m)).
  { apply (filter_refine (fun r => within w (fst r))); [|exact Fm]. intros x. unfold within. rewrite U1, U2, U3, W1, W2, W3. rewrite Z.leb_le. split.
    - intros (_ & K1 & K2). specialize (K2 _ eq_refl). split; [|exact K2]. split; [reflexivity|]. split; [exact K1|]. intros e E. specialize (Hhi _ E). lia.
    - intros ((_ & K1 & K2) & K3). split; [reflexivity|]. split; [exact K1|]. intros e [= <-]. exact K3. }
  assert (F2 : rows_within w2 rows (filter (fun r => b <=? fst r) m)).
  { apply (filter_refine (fun r => within w (fst r))); [|exact Fm]. intros x. unfold within. rewrite U1, U2, U3, V1, V2, V3. rewrite Z.leb_le. split.
    - intros (_ & K1 & K2). specialize (K1 _ eq_refl). split; [|exact K1]. split; [reflexivity|]. split; [|exact K2]. intros e E. specialize (Hlo _ E). lia.
    - intros ((_ & K1 & K2) & K3). split; [reflexivity|]. split; [|exact K2]. intros e [= <-]. exact K3. }
  assert (Sub : forall Q q, is_filter Q rows q -> Forall (has_reading k) q).
  { intros Q q F. rewrite Forall_forall in *. intros x Hx. apply (is_filter_in _ _ _ _ F) in Hx. apply Hr. tauto. }
  assert (Get : forall w' q c, rows_within w' rows q -> (1 <= c)%nat -> exists o, whole_energy columns msp a rows w' c = Ok o /\ energy_value o = joules (dropna (map (rd k) q)) msp).
  { intros w' q c F Hc. destruct (energy_any columns msp a k rows w' q c Hm HU Hinc Hlen Hc F (Sub _ _ F)) as [G1 G2].
    destruct (Nat.le_gt_cases 2 (length q)) as [L|L]; eexists; (split; [first [exact (G1 L)|exact (G2 L)]|]); [reflexivity|]. symmetry. apply joules_few. exact L. }
  destruct (Get w1 _ c1 F1 H1) as (o1 & O1 & E1). destruct (Get w2 _ c2 F2 H2) as (o2 & O2 & E2). destruct (Get w m c3 Fm H3) as (o & O & E).
  exists o1, o2, o. repeat (split; [assumption|]). rewrite E1, E2, E.
  pose proof (is_filter_sorted _ _ _ Fm (proj1 (increasing_sorted rows) Hinc)) as HS.
  assert (Hpm : Forall (fun r => forall v, nth k (snd r) None = Some v -> 0 <= v) m).
  { rewrite Forall_forall in *. intros x Hx. apply (is_filter_in _ _ _ _ Fm) in Hx. apply Hpos. tauto. }
  assert (Him : increasing m) by (apply increasing_sorted; exact HS).
  destruct (cut_at b m HS) as [(N & EM)|(p & x & q & Ex & EA & EB & EM)].
  - split.
    + rewrite EM at 3. rewrite map_app, dropna_app. apply joules_lose; [exact Hm| |]; rewrite <- dropna_app, <- map_app, <- EM.
      * apply dropna_increasing, rd_increasing. exact Him.
      * apply dropna_nonneg. exact Hpm.
    + intros Hb. exfalso. apply N. apply in_map_iff in Hb. destruct Hb as (r & Er & Hr'). apply in_map_iff. exists r. split; [exact Er|].
      apply (is_filter_in _ _ _ _ Fm). split; [exact Hr'|]. unfold within. rewrite U1, U2, U3, Er. split; [reflexivity|]. split; assumption.
  - rewrite EA, EB. rewrite EM at 1 2. 
    assert (Eq : joules (dropna (map (rd k) (p ++ [x]))) msp + joules (dropna (map (rd k) (x :: q))) msp = joules (dropna (map (rd k) (p ++ x :: q))) msp).
    { assert (Hx : has_reading k x). { pose proof (Sub _ _ Fm) as K. rewrite EM, Forall_app in K. destruct K as [_ K]. apply Forall_inv in K. exact K. }
      pose proof (part_power_app columns msp a k HU p x q Hx) as K. rewrite !(part_uses _ _ _ _ _ _ HU) in K. lia. }
    split; [|intros _]; lia.
Qed.

(** ** Good sections *)

Lemma good_whole msp rows window m rs last :
  0 <= msp -> increasing rows -> nan_free rows -> rows_within window rows m -> (2 <= length m)%nat ->
  runs_of msp (map fst m) rs -> last_of (map fst m) last ->
  (goes_on msp rows last -> tf_end window <> Some last) ->
  exists b e ts us, (b = true <-> goes_on msp rows last) /\ (b = true -> tf_end window = Some e) /\
    frames_of_runs b false rs ts /\ last_closed e ts us /\
    forall c, (1 <= c)%nat -> whole_good msp rows window c = Ok us.
Proof.
  intros Hm Hinc Hnan Hw L Hr Hlast Hex.
  assert (Hlen : (2 <= length rows)%nat).
  { assert (length m <= length rows)%nat; [|lia]. clear -Hw. induction Hw; cbn; lia. }
  assert (Hmn : nan_free m).
  { unfold nan_free. rewrite Forall_forall. intros x Hx. apply (is_filter_in _ _ _ _ Hw) in Hx. unfold nan_free in Hnan. rewrite Forall_forall in Hnan. apply Hnan. tauto. }
  assert (Hvt : valid_times m (map fst m)) by (apply vt_spec; symmetry; apply nan_free_vt; exact Hmn).
  pose proof (is_filter_sorted _ _ _ Hw (proj1 (increasing_sorted rows) Hinc)) as HSm.
  assert (Hmax : In last (map fst m) /\ forall x, In x m -> fst x <= last).
  { destruct Hlast as (q & E). assert (Hz : exists p z, m = p ++ [z] /\ fst z = last).
    { destruct m as [|y m'] using rev_ind; [cbn in L; lia|]. exists m', y. split; [reflexivity|]. rewrite map_app in E. apply app_inj_tail in E. tauto. }
    destruct Hz as (p & z & -> & <-). split; [rewrite map_app; apply in_or_app; right; left; reflexivity|].
    intros x Hx. apply in_app_or in Hx. destruct Hx as [Hx|[<-|[]]]; [|lia]. apply sorted_app in HSm. destruct HSm as (_ & _ & K).
    specialize (K x z Hx (or_introl eq_refl)). unfold slt in K. lia. }
  destruct Hmax as [Hlin Hmax]. apply in_map_iff in Hlin. destruct Hlin as (zl & Ezl & Hzl).
  assert (Hwl : within window last) by (apply (is_filter_in _ _ _ _ Hw) in Hzl; rewrite <- Ezl; tauto).
  (* the end of the chunks *)
  assert (One : forall c, (1 <= c)%nat -> exists b e ts us, (b = true <-> goes_on msp rows last) /\ (b = true -> tf_end window = Some e) /\
    ((last_time rows e /\ forall x, tf_end window = Some x -> e <= x) \/ (tf_end window = Some e /\ forall l, last_time rows l -> e <= l)) /\ frames_of_runs b false rs ts /\ last_closed e ts us /\ whole_good msp rows window c = Ok us).
  { intros c Hc. destruct (whole_load rows window m 10 c Hinc Hlen Hc Hw) as (ss & Es & S2 & _).
    destruct (S2 L) as (cs & s & e & El & Hd & Hch & Hb & Hle & He).
    assert (HLk : Forall (look_ahead_right rows 10) cs).
    { rewrite Forall_forall. intros ch Hch2. apply (load_look rows window ss 10 c); [rewrite El; exact Hch2|].
      destruct Hd as (_ & _ & Hd). rewrite Forall_forall in Hd. specialize (Hd _ Hch2). destruct (c_rows ch); [cbn in Hd; lia|discriminate]. }
    assert (HUs : Forall usable_chunk cs).
    { rewrite Forall_forall in *. intros ch Hch2. apply (nan_free_usable rows 10); [exact Hnan|lia|apply HLk; exact Hch2|].
      destruct Hd as (_ & _ & Hd). rewrite Forall_forall in Hd. specialize (Hd _ Hch2). lia. }
    assert (Hg : goes_on msp rows last -> tf_end window = Some e).
    { intros (r & Hin & _ & Hr1). destruct He as [(y & q & Ey & Fy)|He]; [|exact He]. exfalso.
      assert (Hry : fst r <= e).
      { subst e. rewrite Ey in Hin. apply in_app_or in Hin. destruct Hin as [Hin|[<-|[]]]; [|lia].
        pose proof (proj1 (increasing_sorted rows) Hinc) as K. rewrite Ey in K. apply sorted_app in K. destruct K as (_ & _ & K).
        specialize (K r y Hin (or_introl eq_refl)). unfold slt in K. lia. }
      assert (In r m).
      { apply (is_filter_in _ _ _ _ Hw). split; [exact Hin|]. destruct Hwl as (Z1 & Z2 & _). split; [exact Z1|]. split.
        - intros s' Es'. specialize (Z2 _ Es'). lia.
        - intros e' Ee'. specialize (Hb _ Ee'). lia. }
      specialize (Hmax _ H). lia. }
    destruct (chunks_combined msp rows 10 cs m c s e (map fst m) rs last Hm ltac:(lia) Hinc) as (b & ts & us & R1 & R2 & R3 & R4); try assumption.
    - intros ->. cbn in L. lia.
    - intros G x Hx. specialize (Hmax _ Hx). specialize (Hex G). specialize (Hg G). rewrite Hg in Hex.
      assert (last <= e) by (apply Hwl; exact Hg). assert (last <> e) by congruence. lia.
    - exists b, e, ts, us. split; [exact R1|]. split; [intros B; apply Hg, R1, B|]. split.
      + destruct He as [He|He]; [left; split; assumption|right; split; assumption].
      + split; [exact R2|]. split; [exact R3|]. unfold whole_good. rewrite Es. cbn [bind]. rewrite El. exact R4. }
  destruct (One 1%nat ltac:(lia)) as (b & e & ts & us & T1 & T2 & T3 & T4 & T5 & T6).
  exists b, e, ts, us. repeat (split; [assumption|]). intros c Hc.
  destruct (One c Hc) as (b' & e' & ts' & us' & U1 & U2 & U3 & U4 & U5 & U6). rewrite U6. f_equal.
  assert (b' = b).
  { destruct b, b'; try reflexivity; exfalso.
    - assert (false = true) by (apply U1, T1; reflexivity). discriminate.
    - assert (false = true) by (apply T1, U1; reflexivity). discriminate. }
  subst b'. rewrite <- (frames_unique _ _ _ _ T4 _ U4) in U5.
  assert (e' = e).
  { destruct T3 as [[A1 A2]|[A1 A2]], U3 as [[B1 B2]|[B1 B2]].
    - exact (last_time_unique _ _ _ B1 A1).
    - specialize (A2 _ B1). specialize (B2 _ A1). lia.
    - specialize (B2 _ A1). specialize (A2 _ B1). lia.
    - congruence. }
  subst e'. symmetry. apply (last_closed_unique _ _ _ T5 _ U5).
Qed.

Lemma good_few msp rows window m c : increasing rows -> (2 <= length rows)%nat -> (1 <= c)%nat -> rows_within window rows m ->
  (length m < 2)%nat -> whole_good msp rows window c = Ok [].
Proof.
  intros Hinc Hlen Hc Hw L. destruct (few_load rows window m 10 c Hinc Hlen Hc Hw L) as (ss & cs & Es & El & Hcs).
  unfold whole_good. rewrite Es. cbn [bind]. rewrite El. destruct Hcs as [->|(_ & w & -> & [Hu Ho])]; [reflexivity|].
  unfold usable, ordered in *. destruct w as [s e en em inc]. cbn in Hu. subst em. unfold good_sections_of. cbn.
  reflexivity.
Qed.

(** ** Dropout rate *)

Definition chunk_drop {A} period (ch : chunk A) : dropout :=
  mkDrop (match get_dropout_rate (map fst (c_rows ch)) period with Ok r => r | Err _ => None end) (Z.of_nat (length (c_rows ch))).

Lemma map_fst_sorted {A} (l : list (sample A)) : StronglySorted slt l -> StronglySorted Z.lt (map fst l).
Proof.
  induction l as [|x l IH]; intros H; [constructor|]. apply StronglySorted_inv in H. destruct H as [H1 H2]. cbn. constructor; [apply IH; exact H1|].
  apply Forall_map. exact H2.
Qed.

Lemma drop_rows {A} period (cs : list (chunk A)) : 0 < period -> Forall (fun ch => StronglySorted slt (c_rows ch)) cs ->
  Forall (fun ch => usable (c_tf ch)) cs -> no_overlap (map c_tf cs) ->
  exists d, dropout_process period (cs, None) = Ok d /\ Permutation d (map row_of (map (fun ch => (c_tf ch, chunk_drop period ch)) cs)).
Proof.
  intros Hp HS HU HN. unfold dropout_process. cbn [fst snd].
  set (l := map (fun ch => (c_tf ch, chunk_drop period ch)) cs).
  assert (E : forall data, foldM (fun d ch => do r <- get_dropout_rate (map fst (c_rows ch)) period; results_append d (c_tf ch) (mkDrop r (Z.of_nat (length (c_rows ch))))) cs data = append_all l data).
  { subst l. clear HU HN. unfold append_all. induction cs as [|ch cs IH]; intros data; [reflexivity|]. apply Forall_cons_iff in HS. destruct HS as [S1 S2].
    cbn [foldM map fst snd]. unfold chunk_drop at 1.
    assert (Er : exists r, get_dropout_rate (map fst (c_rows ch)) period = Ok r).
    { destruct (dropout_in_range (map fst (c_rows ch)) period Hp (map_fst_sorted _ S1)) as [[_ E]|(a & b & m & q & _ & _ & _ & E & _)]; eexists; exact E. }
    destruct Er as [r Er]. rewrite Er. cbn [bind]. destruct (results_append data (c_tf ch) _); cbn [bind]; [apply IH; exact S2|reflexivity]. }
  rewrite E. assert (HU' : Forall (fun p => usable (fst p)) l) by (subst l; apply Forall_map; exact HU).
  destruct (append_all_outcome l [] HU') as (d & Ed & Hpd & _).
  - constructor.
  - constructor.
  - rewrite app_nil_r. apply no_overlap_rows; [exact HU'|]. subst l. rewrite map_map. cbn [fst]. exact HN.
  - exists d. rewrite Ed. cbn [bind]. rewrite app_nil_r in Hpd. split; [reflexivity|exact Hpd].
Qed.

Lemma one_no_overlap t : no_overlap [t].
Proof. intros i j p q x Hi Hj Hp Hq. destruct i as [|[|i]], j as [|[|j]]; cbn in Hi, Hj; congruence. Qed.

(** What the chunks are, whatever there is in the window. *)
Lemma drop_load {A} period (rows m : list (sample A)) window c : 0 < period -> increasing rows -> (2 <= length rows)%nat -> (1 <= c)%nat -> rows_within window rows m ->
  exists ss cs d, stat_sections rows window = Ok ss /\ hdf_load rows window ss 0 c = (cs, None) /\
    ((2 <= length m)%nat -> cs <> []) /\ (length m = 1%nat -> cs = []) /\
    Forall (fun ch => StronglySorted slt (c_rows ch)) cs /\ Forall (fun ch => (length (c_rows ch) <= c + 1)%nat) cs /\
    dropout_process period (cs, None) = Ok d /\ Permutation d (map row_of (map (fun ch => (c_tf ch, chunk_drop period ch)) cs)).
Proof.
  intros Hp Hinc Hlen Hc Hw.
  destruct (whole_load rows window m 0 c Hinc Hlen Hc Hw) as (ss & Es & S2 & S1).
  assert (X : exists cs, hdf_load rows window ss 0 c = (cs, None) /\ ((2 <= length m)%nat -> cs <> []) /\ (length m = 1%nat -> cs = []) /\
     Forall (fun ch => StronglySorted slt (c_rows ch)) cs /\ Forall (fun ch => (length (c_rows ch) <= c + 1)%nat) cs /\
     Forall (fun ch => usable (c_tf ch)) cs /\ no_overlap (map c_tf cs)).
  { destruct (Nat.le_gt_cases 2 (length m)) as [L|L].
    - destruct (S2 L) as (cs & s & e & El & Hd & Hch & _). exists cs. split; [exact El|]. split; [|split; [lia|]; split].
      + intros _ ->. destruct Hd as (E & _). cbn in E. subst m. cbn in L. lia.
      + rewrite Forall_forall. intros ch Hin. destruct (load_look rows window ss 0 c ch) as (pre & post & E & _); [rewrite El; exact Hin| |].
        * destruct Hd as (_ & _ & Hd). rewrite Forall_forall in Hd. specialize (Hd _ Hin). destruct (c_rows ch); [cbn in Hd; lia|discriminate].
        * pose proof (proj1 (increasing_sorted rows) Hinc) as K. rewrite E in K. apply sorted_app in K. destruct K as (_ & K & _). apply sorted_app in K. tauto.
      + split; [destruct Hd as (_ & _ & Hd); eapply Forall_impl; [|exact Hd]; cbv beta; intros; lia|].
        split; [apply Forall_map, (chain_usable _ _ _ Hch)|exact (chain_no_overlap _ _ _ Hch)].
    - destruct (S1 L) as (cs & El & [->|(-> & w & -> & Hu)]).
      + exists []. split; [exact El|]. split; [lia|]. split; [reflexivity|]. split; [constructor|]. split; [constructor|]. split; [constructor|]. intros i j p q x Hi. destruct i; discriminate.
      + exists [mkChunk [] None w]. split; [exact El|]. split; [discriminate|]. split; [discriminate|]. split; [repeat constructor|]. split; [constructor; [cbn; lia|constructor]|].
        split; [constructor; [exact Hu|constructor]|]. apply one_no_overlap. }
  destruct X as (cs & El & X0 & X00 & X1 & X2 & X3 & X4). destruct (drop_rows period cs Hp X1 X3 X4) as (d & Ed & Hd).
  exists ss, cs, d. repeat (split; [assumption|]). exact Hd.
Qed.

Lemma perm_ne {A B} (f : A -> B) (d : list B) l : Permutation d (map f l) -> l <> [] -> d <> [].
Proof. intros H N ->. apply Permutation_nil in H. destruct l; [contradiction|discriminate]. Qed.

Lemma simple_combined d : d <> [] -> dropout_simple d = Ok (dropout_combined d).
Proof. destruct d; [contradiction|reflexivity]. Qed.

Lemma map_ne {A B} (f : A -> B) l : l <> [] -> map f l <> [].
Proof. destruct l; [contradiction|discriminate]. Qed.

Lemma dropout_range {A} period (rows m : list (sample A)) window c : 0 < period -> increasing rows -> (1 <= c)%nat ->
  rows_within window rows m -> (2 <= length m)%nat -> exists q, whole_dropout period rows window c = Ok q /\ (0 <= q <= 1)%Q.
Proof.
  intros Hp Hinc Hc Hw L. assert (Hlen : (2 <= length rows)%nat).
  { assert (length m <= length rows)%nat; [|lia]. clear -Hw. induction Hw; cbn; lia. }
  destruct (drop_load period rows m window c Hp Hinc Hlen Hc Hw) as (ss & cs & d & Es & El & N & _ & HS & _ & Ed & Hd). specialize (N L).
  unfold whole_dropout. rewrite Es. cbn [bind]. rewrite El, Ed. cbn [bind].
  assert (K : forall r, In r d -> exists ch, In ch cs /\ r_val r = chunk_drop period ch).
  { intros r Hr. apply (Permutation_in _ Hd) in Hr. rewrite map_map in Hr. apply in_map_iff in Hr. destruct Hr as (ch & <- & Hch). exists ch. split; [exact Hch|reflexivity]. }
  apply dropout_simple_range; [apply (perm_ne _ _ _ Hd), map_ne; exact N| |]; rewrite Forall_forall; intros r Hr; destruct (K r Hr) as (ch & Hch & E); rewrite E; unfold chunk_drop; cbn [d_n d_rate]; [lia|].
  intros x Hx. rewrite Forall_forall in HS.
  destruct (dropout_in_range (map fst (c_rows ch)) period Hp (map_fst_sorted _ (HS _ Hch))) as [[_ E']|(a & b & n & q & _ & _ & _ & E' & R & _)]; rewrite E' in Hx; [discriminate|].
  injection Hx as <-. exact R.
Qed.

Lemma combined_none data : Forall (fun r => d_rate (r_val r) = None) data -> (dropout_combined data == 0)%Q.
Proof.
  intros H. unfold dropout_combined. generalize (tot_samples data) as tot. intros tot. induction data as [|r data IH]; [reflexivity|].
  apply Forall_cons_iff in H. destruct H as [H1 H2]. cbn [map fold_right]. rewrite (IH H2). unfold dropout_term. rewrite H1. reflexivity.
Qed.

Lemma dropout_small {A} period (rows m : list (sample A)) window c : 0 < period -> increasing rows -> (1 <= c <= 3)%nat ->
  rows_within window rows m -> (2 <= length m)%nat -> exists q, whole_dropout period rows window c = Ok q /\ (q == 0)%Q.
Proof.
  intros Hp Hinc Hc Hw L. assert (Hlen : (2 <= length rows)%nat).
  { assert (length m <= length rows)%nat; [|lia]. clear -Hw. induction Hw; cbn; lia. }
  destruct (drop_load period rows m window c Hp Hinc Hlen ltac:(lia) Hw) as (ss & cs & d & Es & El & N & _ & HS & Hsz & Ed & Hd). specialize (N L).
  exists (dropout_combined d). unfold whole_dropout. rewrite Es. cbn [bind]. rewrite El, Ed. cbn [bind].
  split; [apply simple_combined, (perm_ne _ _ _ Hd), map_ne; exact N|].
  apply combined_none. rewrite Forall_forall. intros r Hr. apply (Permutation_in _ Hd) in Hr. rewrite map_map in Hr. apply in_map_iff in Hr. destruct Hr as (ch & <- & Hch).
  cbn [row_of r_val snd fst chunk_drop d_rate]. unfold get_dropout_rate. rewrite map_length. rewrite Forall_forall in Hsz. specialize (Hsz _ Hch).
  replace (Z.of_nat (length (c_rows ch)) <? 5) with true by lia. reflexivity.
Qed.

Lemma dropout_single {A} period (rows m : list (sample A)) window c : 0 < period -> increasing rows -> (2 <= length rows)%nat -> (1 <= c)%nat ->
  rows_within window rows m -> length m = 1%nat -> whole_dropout period rows window c = Err KeyError.
Proof.
  intros Hp Hinc Hlen Hc Hw L. destruct (drop_load period rows m window c Hp Hinc Hlen Hc Hw) as (ss & cs & d & Es & El & _ & N & _ & _ & Ed & Hd).
  rewrite (N L) in *. unfold whole_dropout. rewrite Es. cbn [bind]. rewrite El. reflexivity.
Qed.

Lemma dropout_one {A} period (rows m : list (sample A)) window c : 0 < period -> increasing rows -> (length rows <= c)%nat ->
  rows_within window rows m -> (2 <= length m)%nat -> exists q, whole_dropout period rows window c = Ok q /\ missing_rate period m q.
Proof.
  intros Hp Hinc Hc Hw L. assert (Hlen : (2 <= length rows)%nat).
  { assert (length m <= length rows)%nat; [|lia]. clear -Hw. induction Hw; cbn; lia. }
  assert (Hc1 : (1 <= c)%nat) by lia.
  destruct (drop_load period rows m window c Hp Hinc Hlen Hc1 Hw) as (ss & cs & d & Es & El & N & _ & HS & Hsz & Ed & Hd). specialize (N L).
  exists (dropout_combined d). unfold whole_dropout. rewrite Es. cbn [bind]. rewrite El, Ed. cbn [bind].
  split; [apply simple_combined, (perm_ne _ _ _ Hd), map_ne; exact N|].
  destruct (whole_load rows window m 0 c Hinc Hlen Hc1 Hw) as (ss' & Es' & S2 & S1). rewrite Es in Es'. injection Es' as <-.
  destruct (S2 L) as (cs' & s & e & El' & Hdl & _). rewrite El in El'. injection El' as <-.
  assert (L1 : (length cs <= 1)%nat).
  { destruct (stat_section rows window m Hinc Hlen Hw) as [(E & L')|(t & w & _ & _ & E & _)]; [lia|]. rewrite Es in E. injection E as ->.
    pose proof (section_one_chunk rows window t 0 c Hc Hc1) as K. cbn [hdf_load] in El. unfold gen_app in El. 
    destruct (hdf_load_section rows window t 0 c) as [l0 [x|]]; cbn in El, K; injection El as <-; try discriminate. rewrite app_nil_r. exact K. }
  destruct cs as [|ch [|ch2 cs]]; cbn in L1; try lia; [contradiction|].
  assert (Em : c_rows ch = m) by (destruct Hdl as (E & _); cbn in E; rewrite app_nil_r in E; exact E).
  cbn [map] in Hd. apply Permutation_sym, Permutation_length_1_inv in Hd. subst d. apply Forall_inv in HS. rewrite Em in *.
  unfold dropout_combined, tot_samples. cbn [map fold_right row_of r_val snd fst chunk_drop d_n dropout_term d_rate]. rewrite Em.
  destruct (dropout_in_range (map fst m) period Hp (map_fst_sorted _ HS)) as [[Hl E']|(a & b & n & q & Ha & Hb & Hn & E' & R & Eq)].
  - left. rewrite map_length in Hl. split; [exact Hl|]. unfold chunk_drop. rewrite Em, E'. reflexivity.
  - assert (Hl : (5 <= length m)%nat).
    { destruct (Nat.le_gt_cases 5 (length m)) as [K|K]; [exact K|]. unfold get_dropout_rate in E'. rewrite map_length in E'.
      replace (Z.of_nat (length m) <? 5) with true in E' by lia. discriminate. }
    right. split; [exact Hl|]. exists a, b, n. split; [|split; [|split; [exact Hn|]]].
    + destruct m as [|y m]; [discriminate|]. injection Ha as <-. exists y, m. split; reflexivity.
    + destruct m as [|y m'] using rev_ind; [discriminate|]. rewrite map_app in Hb. cbn [map] in Hb. rewrite last_opt_snoc in Hb. injection Hb as <-.
      exists y, m'. split; reflexivity.
    + unfold chunk_drop. rewrite Em, E'. cbn [d_rate d_n]. rewrite map_length in Eq. rewrite <- Eq. cbn [sumZ]. unfold dropout_term. cbn [d_rate d_n].
      rewrite Z.add_0_r. replace (Z.of_nat (length m) =? 0) with false by lia.
      assert (~ (inject_Z (Z.of_nat (length m)) == 0)%Q) by (apply inject_Z_nonzero; lia). field. exact H.
Qed.

(** ** Tables that are too short *)
Lemma short_table {A} (rows : list (sample A)) window : (length rows < 2)%nat ->
  stat_sections rows window = Err (match rows with [] => IndexError | _ => ValueError end).
Proof.
  intros H. destruct rows as [|x [|y r]]; cbn in H; try lia; unfold stat_sections, hdf_get_timeframe; [reflexivity|].
  cbn [last_opt]. rewrite mk_err by lia. reflexivity.
Qed.

Lemma short_statistics columns msp a (rows : list (sample (list (option Z)))) (rows' : list (sample bool)) period window c :
  (length rows < 2)%nat -> (length rows' < 2)%nat ->
  whole_energy columns msp a rows window c = Err (match rows with [] => IndexError | _ => ValueError end) /\
  whole_dropout period rows window c = Err (match rows with [] => IndexError | _ => ValueError end) /\
  whole_good msp rows' window c = Err (match rows' with [] => IndexError | _ => ValueError end).
Proof.
  intros H H'. unfold whole_energy, whole_dropout, whole_good. rewrite (short_table rows window H), (short_table rows' window H'). repeat split.
Qed.
