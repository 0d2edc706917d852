(** Proofs about the good sections of a meter with missing values. *)
From Coq Require Import QArith Qminmax Permutation Sorted.
From Verif Require Import Base TimeFrameModel TimeFrameSpec TimeFrameProofs StoreModel StoreSpec StoreProofs StoreProofs2 ResultsModel ResultsSpec ResultsProofs
  GoodSectionsModel GoodSectionsSpec GoodSectionsProofs GoodSectionsProofs2 GoodSectionsProofs3 EnergyModel EnergySpec EnergyProofs LoadFrames EnergyProofs2
  WholeModel WholeSpec WholeProofs GapsModel GapsSpec GapsProofs GapsProofs2.
Import List. Open Scope Z_scope.

Lemma vt_times {A} (v : A -> bool) p : vt (validity v p) = times_with v p.
Proof. unfold vt, validity, times_with. induction p as [|x p IH]; [reflexivity|]. cbn [map filter snd]. destruct (v (snd x)); cbn [map fst]; rewrite IH; reflexivity. Qed.
Lemma times_app {A} (v : A -> bool) p q : times_with v (p ++ q) = times_with v p ++ times_with v q.
Proof. unfold times_with. rewrite filter_app, map_app. reflexivity. Qed.
Lemma times_in {A} (v : A -> bool) p t : In t (times_with v p) <-> exists r, In r p /\ v (snd r) = true /\ fst r = t.
Proof.
  unfold times_with. rewrite in_map_iff. split.
  - intros (r & E & H). apply filter_In in H. exists r. tauto.
  - intros (r & H1 & H2 & E). exists r. split; [exact E|]. apply filter_In. tauto.
Qed.

Definition ne_list {A} (l : list A) : bool := match l with [] => false | _ => true end.

(** The frames of the spans. *)
Lemma spans_long {A} (v : A -> bool) (ms : list (list (sample A))) :
  Forall (fun p => (exists x, p = [x]) \/ (exists x q y, p = x :: q ++ [y] /\ v (snd x) = true /\ v (snd y) = true)) ms ->
  long_runs (filter (fun ts => match ts with [] => false | _ => true end) (map (times_with v) ms)) = map (times_with v) (long_runs ms) /\
  Forall (fun p => forall f, first_of (times_with v p) f -> first_of (map fst p) f) (long_runs ms) /\
  Forall (fun p => forall l, last_of (times_with v p) l -> last_of (map fst p) l) (long_runs ms).
Proof.
  induction 1 as [|p ms Hp H (I1 & I2 & I3)]; [repeat split; constructor|]. unfold long_runs in *. cbn [map filter].
  destruct Hp as [(x & ->)|(x & q & y & -> & Vx & Vy)].
  - cbn [length Nat.leb]. split; [|split; assumption]. unfold times_with at 1 2. cbn [filter]. destruct (v (snd x)); cbn [map filter length Nat.leb]; exact I1.
  - assert (E : times_with v (x :: q ++ [y]) = fst x :: times_with v q ++ [fst y]).
    { change (x :: q ++ [y]) with ([x] ++ q ++ [y]). rewrite !times_app. unfold times_with at 1 3. cbn [filter]. rewrite Vx, Vy. reflexivity. }
    rewrite E. cbn [filter]. 
    replace (Nat.leb 2 (length (fst x :: times_with v q ++ [fst y]))) with true by (symmetry; apply Nat.leb_le; cbn [length]; rewrite app_length; cbn; lia).
    replace (Nat.leb 2 (length (x :: q ++ [y]))) with true by (symmetry; apply Nat.leb_le; cbn [length]; rewrite app_length; cbn; lia).
    cbn [map]. rewrite I1, E. split; [reflexivity|]. split; (constructor; [|assumption]).
    + intros f (r & Ef). rewrite E in Ef. injection Ef as <- _. eexists. reflexivity.
    + intros l (r & El). rewrite E in El. change (fst x :: times_with v q ++ [fst y]) with ((fst x :: times_with v q) ++ [fst y]) in El. apply app_inj_tail in El. destruct El as [_ <-].
      exists (fst x :: map fst q). cbn [map]. rewrite map_app. reflexivity.
Qed.

Lemma framed_spans {A} (f : list (sample A) -> list Z) ps : Forall (fun p => forall x, first_of (f p) x -> first_of (map fst p) x) ps ->
  Forall (fun p => forall x, last_of (f p) x -> last_of (map fst p) x) ps -> forall us, framed (map f ps) us -> framed (map (map fst) ps) us.
Proof.
  induction ps as [|p ps IH]; intros H1 H2 us HF; cbn [map] in *; [inversion HF; constructor|].
  apply Forall_cons_iff in H1, H2. destruct H1 as [F1 F2], H2 as [L1 L2].
  inversion HF as [|p' fi la Hf Hl E1 E2|p' fi la ps' us' Hne Hf Hl HF' E1 E2]; subst.
  - destruct ps; [|discriminate]. apply fd_one; auto.
  - apply fd_cons; auto. destruct ps; [contradiction|discriminate].
Qed.

Lemma good_spans {A} (v : A -> bool) msp (rows m : list (sample A)) window ms c :
  0 <= msp -> increasing rows -> rows_within window rows m -> tf_end window = None -> (length rows <= c)%nat -> row_spans v msp m ms -> (2 <= length (times_with v m))%nat ->
  exists us, whole_good msp (validity v rows) window c = Ok us /\ nonempty us = us /\ framed (map (map fst) (long_runs ms)) us /\ Forall (fun p => p <> []) ms.
Proof.
  intros Hm Hinc Hw Hend Hlc (Ec & Hsp & Hr) L2. set (R := validity v rows). set (M := validity v m).
  assert (HincR : increasing R) by (apply validity_increasing; exact Hinc).
  assert (HwR : rows_within window R M) by (apply validity_within; exact Hw).
  assert (L : (2 <= length M)%nat).
  { unfold M, validity. rewrite map_length. unfold times_with in L2. rewrite map_length in L2. assert (length (filter (fun r => v (snd r)) m) <= length m)%nat; [|lia]. clear. induction m as [|x m IH]; [cbn; lia|]. cbn. destruct (v (snd x)); cbn; lia. }
  assert (LR : (length M <= length R)%nat) by (clear -HwR; induction HwR; cbn; lia).
  assert (Hc : (1 <= c)%nat) by (unfold R, validity in LR; rewrite map_length in LR; lia).
  destruct (whole_load R window M 10 c HincR ltac:(lia) Hc HwR) as (ss & Es & S2 & _). destruct (S2 L) as (cs & s & e & El & Hd & Hch & Hb & Hle & He).
  assert (One : (length cs <= 1)%nat).
  { unfold stat_sections in Es. destruct (hdf_get_timeframe R window) as [t|]; [|discriminate]. cbn [bind] in Es. injection Es as <-. cbn [filter] in El. destruct (negb (tf_empty t)).
    - pose proof (section_one_chunk R window (set_incl t true) 10 c) as K. cbn [hdf_load] in El. destruct (hdf_load_section R window (set_incl t true) 10 c) as [cs' o']. unfold gen_app in El. cbn [fst snd] in *.
      assert (KL : (length cs' <= 1)%nat) by (apply K; [unfold R, validity; rewrite map_length; exact Hlc|exact Hc]). destruct o'; [discriminate|]. injection El as <-. rewrite app_nil_r. exact KL.
    - cbn in El. injection El as <-. cbn. lia. }
  assert (Hne : cs <> []) by (apply (delivers_ne _ _ _ L Hd)).
  destruct cs as [|ch [|ch2 cs]]; [contradiction| |cbn in One; lia].
  assert (Erows : c_rows ch = M) by (destruct Hd as (E & _); unfold unshared in E; cbn in E; rewrite app_nil_r in E; exact E).
  assert (HLk : look_ahead_right R 10 ch) by (apply (load_look R window ss 10 c); [rewrite El; left; reflexivity|rewrite Erows; destruct M; [cbn in L; lia|discriminate]]).
  pose proof (is_filter_sorted _ _ _ HwR (proj1 (increasing_sorted R) HincR)) as HSm.
  (* after the rows of the chunk there is no other *)
  assert (Hafter : forall r x, In x M -> In r R -> fst x < fst r -> In r M).
  { intros r x Hx Hin Hlt. apply (is_filter_in _ _ _ _ HwR). split; [exact Hin|]. apply (is_filter_in _ _ _ _ HwR) in Hx. destruct Hx as [_ (Z1 & Z2 & _)].
    split; [exact Z1|]. split; [intros s' Es'; specialize (Z2 _ Es'); lia|intros e' Ee'; rewrite Hend in Ee'; discriminate]. }
  assert (Hpost : c_look ch = Some []).
  { destruct HLk as (pre & post & ER & EL). cbn in EL. rewrite EL. destruct post as [|z post]; [reflexivity|]. exfalso. rewrite Erows in ER.
    destruct M as [|x0 M0] eqn:EM; [cbn in L; lia|]. rewrite <- EM in *.
    pose proof (proj1 (increasing_sorted R) HincR) as HS. rewrite ER in HS. apply sorted_app in HS. destruct HS as (_ & HS & _). apply sorted_app in HS. destruct HS as (_ & _ & HS).
    assert (Hx0 : In x0 M) by (rewrite EM; left; reflexivity).
    assert (Hz : In z M). { apply (Hafter z x0 Hx0); [rewrite ER; apply in_or_app; right; apply in_or_app; right; left; reflexivity|]. exact (HS x0 z Hx0 (or_introl eq_refl)). }
    specialize (HS z z Hz (or_introl eq_refl)). unfold slt in HS. lia. }
  assert (Hlast : exists last, last_of (times_with v m) last).
  { destruct (times_with v m) as [|y l] using rev_ind; [cbn in L2; lia|]. exists y, l. reflexivity. }
  destruct Hlast as (last & Hlast).
  assert (Hno : ~ goes_on msp R last).
  { intros (r & Hin & Vr & Hr1). assert (Hlm : In last (times_with v m)) by (destruct Hlast as (q & ->); apply in_or_app; right; left; reflexivity).
    rewrite <- vt_times in Hlm. fold M in Hlm. unfold vt in Hlm. apply in_map_iff in Hlm. destruct Hlm as (x & Ex & Hx). apply filter_In in Hx. destruct Hx as [Hx _].
    assert (HrM : In r M) by (apply (Hafter r x Hx Hin); lia).
    assert (Hrv : In (fst r) (times_with v m)) by (rewrite <- vt_times; fold M; unfold vt; apply in_map, filter_In; split; [exact HrM|exact Vr]).
    assert (HSv : StronglySorted Z.lt (times_with v m)) by (rewrite <- vt_times; fold M; apply vt_sorted; exact HSm).
    destruct Hlast as (q & Eq). rewrite Eq in HSv, Hrv. apply in_app_or in Hrv. destruct Hrv as [Hrv|[Hrv|[]]]; [|lia].
    assert (fst r < last); [|lia]. clear -HSv Hrv. revert Hrv HSv. induction q as [|z q IH]; intros Hin HS; [destruct Hin|]. cbn [List.app] in HS. apply StronglySorted_inv in HS. destruct HS as [H1 H2].
    destruct Hin as [E|Hin]; [|exact (IH Hin H1)]. rewrite <- E. rewrite Forall_forall in H2. apply H2. apply in_or_app. right. left. reflexivity. }
  destruct (chunks_combined msp R 10 [ch] M c s e (times_with v m) (filter (fun ts => match ts with [] => false | _ => true end) (map (times_with v) ms)) last Hm ltac:(lia) HincR) as (b & ts & us & R1 & R2 & R3 & R4); try assumption.
  - intros E. rewrite E in L. cbn in L. lia.
  - constructor; [exact HLk|constructor].
  - constructor; [|constructor]. split; [exists (times_with v m); split; [apply vt_spec; rewrite Erows; symmetry; apply vt_times|exact L2]|].
    intros l Hl. rewrite Hpost in Hl. injection Hl as <-. left. reflexivity.
  - intros G. contradiction.
  - apply vt_spec. symmetry. apply vt_times.
  - assert (b = false) by (destruct b; [destruct (Hno (proj1 R1 eq_refl))|reflexivity]). subst b.
    assert (HN : Forall (fun r => r <> []) (filter (fun ts => match ts with [] => false | _ => true end) (map (times_with v) ms))).
    { rewrite Forall_forall. intros r Hr1 ->. apply filter_In in Hr1. destruct Hr1 as [_ Hr1]. discriminate. }
    pose proof (frames_framed e ts us R3 _ R2 HN) as HF. destruct (spans_long v ms Hsp) as (E1 & E2 & E3). rewrite E1 in HF.
    apply (framed_spans (times_with v)) in HF; [|exact E2|exact E3].
    exists us. split; [unfold whole_good; rewrite Es; cbn [bind]; rewrite El; exact R4|]. split; [exact (framed_nonempty _ _ HF)|]. split; [exact HF|].
    eapply Forall_impl; [|exact Hsp]. cbv beta. intros p [(x & ->)|(x & q & y & -> & _)]; discriminate.
Qed.

Lemma present_dropna k p s : present k p s -> dropna (map (rd k) p) = s.
Proof. induction 1 as [|r v m s E H IH|r m s E H IH]; [reflexivity| |]; cbn [map]; unfold rd at 1; cbn; rewrite E; cbn; [f_equal|]; exact IH. Qed.
Lemma present_sorted k p s : present k p s -> StronglySorted slt p -> StronglySorted slt s.
Proof.
  induction 1 as [|r v m s E H IH|r m s E H IH]; intros HS; [constructor| |]; apply StronglySorted_inv in HS; destruct HS as [H1 H2]; [|exact (IH H1)].
  constructor; [exact (IH H1)|]. clear -H H2. induction H as [|r' v' m s E H IH|r' m s E H IH]; [constructor| |]; apply Forall_cons_iff in H2; destruct H2 as [A1 A2]; [constructor; [exact A1|exact (IH A2)]|exact (IH A2)].
Qed.
Lemma energy_present_jl k msp p e : 0 <= msp -> StronglySorted slt p -> energy_present k msp p e -> e = jl k msp p.
Proof.
  intros Hm HS (s & Hp & He). unfold jl. rewrite (present_dropna _ _ _ Hp). symmetry. apply (is_energy_unique msp s); [|exact He].
  apply joules_is_energy; [exact Hm|]. apply increasing_sorted. exact (present_sorted _ _ _ Hp HS).
Qed.

Lemma good_energy_missing columns msp a k rows m window ms c es :
  0 <= msp -> uses_column columns a Power k -> increasing rows -> rows_within window rows m -> tf_end window = None -> (length rows <= c)%nat ->
  row_spans present_all msp m ms -> (2 <= length (times_with present_all m))%nat ->
  Forall2 (energy_present k msp) (cut_runs (long_runs ms)) es ->
  energy_in_good_sections columns msp a rows window c = Ok (match long_runs (cut_runs (long_runs ms)) with [] => None | _ => Some (sumZ es) end).
Proof.
  intros Hm HU Hinc Hw Hend Hlc Hsp L2 Hes.
  assert (L : (2 <= length m)%nat).
  { unfold times_with in L2. rewrite map_length in L2. assert (length (filter (fun r : sample (list (option Z)) => present_all (snd r)) m) <= length m)%nat; [|lia]. clear. induction m as [|x m IH]; [cbn; lia|]. cbn. destruct (present_all (snd x)); cbn; lia. }
  assert (LR : (length m <= length rows)%nat) by (clear -Hw; induction Hw; cbn; lia).
  destruct (good_spans present_all msp rows m window ms c Hm Hinc Hw Hend Hlc Hsp L2) as (us & Eg & En & HF & HN).
  destruct (framed_energy columns msp rows m window ms us c Hinc Hw L (proj1 Hsp) HN HF ltac:(lia)) as (d & Ed & D1 & D2 & _).
  unfold energy_in_good_sections. rewrite Eg. cbn [bind]. rewrite En, Ed. cbn [bind]. f_equal.
  assert (HS : Forall (StronglySorted slt) (cut_runs (long_runs ms))).
  { apply cut_sorted. rewrite Forall_forall. intros p Hp. unfold long_runs in Hp. apply filter_In in Hp. apply (concat_sorted ms); [|tauto]. rewrite (proj1 Hsp).
    exact (is_filter_sorted _ _ _ Hw (proj1 (increasing_sorted rows) Hinc)). }
  assert (E : es = map (jl k msp) (cut_runs (long_runs ms))).
  { clear -Hm HS Hes. induction Hes as [|p e ps es H Hes IH]; [reflexivity|]. apply Forall_cons_iff in HS. destruct HS as [S1 S2]. cbn [map]. rewrite (IH S2). f_equal. apply energy_present_jl; assumption. }
  destruct (long_runs (cut_runs (long_runs ms))) as [|p0 ps0] eqn:E0.
  - rewrite (D1 eq_refl). reflexivity.
  - destruct (D2 ltac:(discriminate) a k HU (or_intror Hlc)) as [-> ->]. rewrite E. reflexivity.
Qed.

(** ** No row without a missing value *)
Lemma no_valid_good {A} (v : A -> bool) msp (rows m : list (sample A)) window c : increasing rows -> (2 <= length rows)%nat -> (1 <= c)%nat -> rows_within window rows m ->
  Forall (fun r => v (snd r) = false) rows -> whole_good msp (validity v rows) window c = Ok [].
Proof.
  intros Hinc Hlen Hc Hw Hv. set (R := validity v rows).
  assert (LR : (2 <= length R)%nat) by (unfold R, validity; rewrite map_length; exact Hlen).
  destruct (whole_load R window (validity v m) 10 c (validity_increasing v rows Hinc) LR Hc (validity_within v _ _ _ Hw)) as (ss & Es & S2 & S1).
  assert (K : exists cs, hdf_load R window ss 10 c = (cs, None) /\ Forall (fun ch => c_rows ch = [] \/ look_ahead_right R 10 ch) cs).
  { destruct (Nat.lt_ge_cases (length (validity v m)) 2) as [L|L].
    - destruct (S1 L) as (cs & El & Hcs). exists cs. split; [exact El|]. destruct Hcs as [->|(_ & w & -> & _)]; [constructor|]. constructor; [left; reflexivity|constructor].
    - destruct (S2 L) as (cs & s & e & El & _). exists cs. split; [exact El|]. rewrite Forall_forall. intros ch Hin. destruct (c_rows ch) as [|x l] eqn:E; [left; reflexivity|right].
      apply (load_look R window ss 10 c); [rewrite El; exact Hin|rewrite E; discriminate]. }
  destruct K as (cs & El & Hcs). unfold whole_good. rewrite Es. cbn [bind]. rewrite El. unfold good_sections_of, gs_process. cbn [fst snd].
  assert (HF : Forall (fun ch => filter snd (c_rows ch) = []) cs).
  { eapply Forall_impl; [|exact Hcs]. cbv beta. intros ch [->|(pre & post & E & _)]; [reflexivity|].
    assert (HR : Forall (fun r => snd r = false) R) by (unfold R, validity; apply Forall_map; exact Hv). rewrite E in HR. apply Forall_app in HR. destruct HR as [_ HR]. apply Forall_app in HR. destruct HR as [HR _].
    clear -HR. induction HR as [|x l H HR IH]; [reflexivity|]. cbn [filter]. rewrite H. exact IH. }
  assert (Ef : foldM (gs_process_chunk msp) cs (false, []) = Ok (false, [])).
  { clear -HF. induction HF as [|ch cs H HF IH]; [reflexivity|]. cbn [foldM].
    assert (E : gs_process_chunk msp (false, []) ch = Ok (false, [])) by (unfold gs_process_chunk, get_good_sections, valid_index; rewrite H; reflexivity).
    rewrite E. exact IH. }
  rewrite Ef. cbn [bind]. reflexivity.
Qed.

Lemma no_valid_energy columns msp a rows m window c : increasing rows -> (2 <= length rows)%nat -> (1 <= c)%nat -> rows_within window rows m ->
  Forall (fun r => In None (snd r)) rows -> energy_in_good_sections columns msp a rows window c = Ok None.
Proof.
  intros Hinc Hlen Hc Hw HN. unfold energy_in_good_sections. rewrite (no_valid_good present_all msp rows m window c Hinc Hlen Hc Hw).
  - reflexivity.
  - eapply Forall_impl; [|exact HN]. cbv beta. intros r Hr. apply not_true_iff_false. intros K. unfold present_all in K. rewrite forallb_forall in K. specialize (K None Hr). discriminate.
Qed.
