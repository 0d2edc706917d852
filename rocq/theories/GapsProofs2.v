(** Proofs about the energy of the good sections of a meter. *)
From Coq Require Import QArith Qminmax Permutation Sorted.
From Verif Require Import Base TimeFrameModel TimeFrameSpec TimeFrameProofs StoreModel StoreSpec StoreProofs StoreProofs2 ResultsModel ResultsSpec ResultsProofs
  GoodSectionsModel GoodSectionsSpec EnergyModel EnergySpec EnergyProofs LoadFrames EnergyProofs2
  WholeModel WholeSpec WholeProofs GapsModel GapsSpec GapsProofs.
Import List. Open Scope Z_scope.

Definition jl (k : nat) (msp : Z) (p : list (sample (list (option Z)))) : Z := joules (dropna (map (rd k) p)) msp.

Lemma energy_is_jl k msp p e : 0 <= msp -> increasing p -> energy_of_rows k msp p e -> e = jl k msp p.
Proof.
  intros Hm Hi (s & Hr & He). unfold jl. rewrite (readings_rd _ _ _ Hr), dropna_some. symmetry. apply (is_energy_unique msp s); [|exact He].
  apply joules_is_energy; [exact Hm|]. eapply readings_increasing; [exact Hr|exact Hi].
Qed.

Lemma section_sum columns msp a k c cs p : uses_column columns a Power k -> delivers cs p c -> p <> [] -> Forall (has_reading k) p ->
  sumZ (map (fun ch => part columns msp a (c_rows ch)) cs) = jl k msp p.
Proof.
  intros HU Hd Hne Hr. assert (Q1 : section_served c p cs) by (split; [contradiction|intros _; exact Hd]).
  rewrite (delivered_sum columns msp a (fun _ => 0) (has_reading k) c cs p (part_power_app _ _ _ _ HU) Q1).
  2:{ apply Forall_tl. eapply served_first; [exact Q1|]. exact Hr. }
  assert (Z0 : forall l : list (chunk (list (option Z))), sumZ (map (fun ch => match c_rows ch with _ :: _ => 0 | [] => 0 end) l) = 0).
  { clear. induction l as [|ch l IH]; [reflexivity|]. cbn [map sumZ]. rewrite IH. destruct (c_rows ch); reflexivity. }
  rewrite Z0, Z.add_0_r. apply (part_uses _ _ _ _ _ _ HU).
Qed.

Lemma sections_sum columns msp a k c ps css : uses_column columns a Power k -> Forall2 (run_served c) ps css -> Forall (fun p => p <> []) ps ->
  Forall (Forall (has_reading k)) ps ->
  sumZ (map (fun ch => part columns msp a (c_rows ch)) (concat css)) = sumZ (map (jl k msp) ps).
Proof.
  intros HU. induction 1 as [|p cs ps css [S1 S2] S IH]; intros HN HR; [reflexivity|]. apply Forall_cons_iff in HN, HR. destruct HN as [N1 N2], HR as [R1 R2].
  cbn [concat map sumZ]. rewrite map_app, sumZ_app, (IH N2 R2). f_equal.
  assert (Lp : (length p = 1 \/ 2 <= length p)%nat) by (destruct p as [|x [|y p]]; [contradiction|left; reflexivity|right; cbn; lia]).
  destruct Lp as [Lp|Lp]; [|exact (section_sum columns msp a k c cs p HU (S2 Lp) N1 R1)].
  rewrite (S1 Lp). symmetry. apply joules_few. lia.
Qed.

Lemma sections_once columns msp a k c ps css : uses_column columns a Power k -> Forall2 (run_served c) ps css -> Forall (fun p => p <> []) ps ->
  Forall (fun cs => (length cs <= 1)%nat) css ->
  sumZ (map (fun ch => part columns msp a (c_rows ch)) (concat css)) = sumZ (map (jl k msp) ps).
Proof.
  intros HU HS HN HL. rewrite <- (map_map (@c_rows (list (option Z))) (part columns msp a)), (served_once c ps css HS HN HL). clear -HU.
  induction ps as [|p ps IH]; [reflexivity|]. unfold long_runs in *. cbn [filter]. destruct (Nat.leb 2 (length p)) eqn:E; cbn [map sumZ]; rewrite IH.
  - f_equal. apply (part_uses _ _ _ _ _ _ HU).
  - assert (J : jl k msp p = 0) by (apply joules_few; apply Nat.leb_gt in E; lia). rewrite J. reflexivity.
Qed.

Lemma cut_in {A} (P : A -> Prop) ps : Forall (Forall P) ps -> Forall (Forall P) (cut_runs ps).
Proof.
  intros H. pose proof (cut_infix ps) as K. revert K H. generalize (cut_runs ps) as qs0. intros qs0 K. induction K as [|p q l l' (post & ->) K IH]; intros H; [constructor|]. apply Forall_cons_iff in H. destruct H as [H1 H2].
  apply Forall_app in H1. constructor; [tauto|exact (IH H2)].
Qed.
Lemma long_in {A} (P : A -> Prop) ms : Forall P (concat ms) -> Forall (Forall P) (long_runs ms).
Proof.
  intros H. rewrite Forall_forall. intros p Hp. unfold long_runs in Hp. apply filter_In in Hp. rewrite Forall_forall in *. intros x Hx. apply H. apply in_concat. exists p. tauto.
Qed.

Lemma served_rows {A} c (ps : list (list (sample A))) css : Forall2 (run_served c) ps css -> Forall (fun p => p <> []) ps -> forall ch, In ch (concat css) -> c_rows ch <> [].
Proof.
  intros HS Hne ch. revert Hne. induction HS as [|p cs ps css [S1 S2] S IH]; intros HP Hin; [destruct Hin|]. apply Forall_cons_iff in HP. destruct HP as [P1 P2].
  cbn [concat] in Hin. apply in_app_or in Hin. destruct Hin as [Hin|Hin]; [|exact (IH P2 Hin)].
  assert (Lp : (length p = 1 \/ 2 <= length p)%nat) by (destruct p as [|x [|y p]]; [contradiction|left; reflexivity|right; cbn; lia]).
  destruct Lp as [Lp|Lp]; [rewrite (S1 Lp) in Hin; destruct Hin|]. destruct (S2 Lp) as (_ & _ & K). rewrite Forall_forall in K. specialize (K _ Hin). intros E. rewrite E in K. cbn in K. lia.
Qed.

Lemma select_none columns a : (forall q, ~ In (q, Some a) columns) -> select_quantity columns a = None.
Proof.
  intros H. unfold select_quantity. destruct (find _ pq_prefs) as [q|] eqn:E; [|reflexivity]. apply find_some in E. destruct E as [_ E].
  apply existsb_exists in E. destruct E as (c & Hin & E). apply col_eqb_spec in E. subst c. destruct (H q Hin).
Qed.

Lemma framed_energy columns msp rows m window ms us c :
  increasing rows -> rows_within window rows m -> (2 <= length m)%nat -> concat ms = m -> Forall (fun p => p <> []) ms ->
  framed (map (map fst) (long_runs ms)) us -> (1 <= c)%nat ->
  exists data, energy_process columns msp (hdf_load rows window us 0 c) = Ok data /\
    (long_runs (cut_runs (long_runs ms)) = [] -> data = []) /\
    (long_runs (cut_runs (long_runs ms)) <> [] -> forall a k, uses_column columns a Power k -> Forall (has_reading k) m \/ (length rows <= c)%nat ->
       has_col (en_get a) data = true /\ osum (map (fun r => en_get a (r_val r)) data) = sumZ (map (jl k msp) (cut_runs (long_runs ms)))) /\
    (forall a, (forall q, ~ In (q, Some a) columns) -> has_col (en_get a) data = false).
Proof.
  intros Hinc Hw L Ec HN0 HF Hc.
  destruct (framed_load rows m window ms us c Hinc Hw L Ec HN0 HF Hc) as (css & El & HS & HUs & HN & HO). rewrite El.
  destruct (process_rows columns msp (concat css) HUs HN) as (d & Ed & Hp). rewrite Ed. exists d. split; [reflexivity|].
  pose proof (cut_ne _ (long_long ms)) as Hne. pose proof (served_rows c _ css HS Hne) as Hrows.
  assert (Hcell : forall ch a, c_rows ch <> [] -> energy_of_type columns (c_rows ch) msp a = Ok (en_get a (chunk_value columns msp ch))).
  { intros ch a Hr. unfold chunk_value. destruct (total_energy_ok columns (c_rows ch) msp) as (v & E & Hv). rewrite E. specialize (Hv a).
    assert (Ecl : match c_rows ch with [] => [] | _ => columns end = columns) by (destruct (c_rows ch); [contradiction|reflexivity]). rewrite Ecl in Hv. exact Hv. }
  split; [|split].
  - intros E0. rewrite (served_no c _ css HS Hne E0) in Hp. apply Permutation_sym, Permutation_nil in Hp. exact Hp.
  - intros E0 a k HU Hr. assert (N0 : concat css <> []) by (apply (served_some c _ _ HS); exact E0). split.
    + rewrite (has_col_perm a _ _ Hp). destruct (concat css) as [|ch cs]; [contradiction|]. specialize (Hrows ch (or_introl eq_refl)).
      unfold has_col. cbn [map existsb row_of fst snd r_val]. apply orb_true_iff. left. specialize (Hcell ch a Hrows).
      rewrite (energy_of_type_uses _ _ msp _ _ _ HU Hrows) in Hcell. injection Hcell as <-. reflexivity.
    + rewrite osum_sum, map_map.
      rewrite (sumZ_perm _ (map (fun r => z_of (en_get a (r_val r))) (map row_of (map (fun ch => (c_tf ch, chunk_value columns msp ch)) (concat css))))) by (apply Permutation_map; exact Hp).
      rewrite !map_map. cbn [row_of r_val snd]. rewrite (map_ext _ (fun ch => part columns msp a (c_rows ch))) by (intros; apply part_chunk).
      destruct Hr as [Hr|Hr].
      * apply (sections_sum columns msp a k c _ css HU HS Hne). apply cut_in, long_in. rewrite Ec. exact Hr.
      * apply (sections_once columns msp a k c _ css HU HS Hne (HO Hr)).
  - intros a Ha. rewrite (has_col_perm a _ _ Hp). unfold has_col. rewrite map_map. 
    apply not_true_iff_false. intros H. apply existsb_exists in H. destruct H as (r & Hin & H). apply in_map_iff in Hin. destruct Hin as (ch & <- & Hin).
    cbn [row_of r_val fst snd] in H. specialize (Hcell ch a (Hrows ch Hin)). unfold energy_of_type in Hcell. rewrite (select_none columns a Ha) in Hcell. injection Hcell as E. rewrite <- E in H. discriminate.
Qed.

Lemma complete_present rows : complete rows -> Forall (fun r : sample (list (option Z)) => present_all (snd r) = true) rows.
Proof.
  intros Hcp. unfold complete in Hcp. eapply Forall_impl; [|exact Hcp]. cbv beta. intros r. unfold present_all. induction 1 as [|o l Ho _ IH]; [reflexivity|]. cbn [forallb]. destruct o; [exact IH|contradiction].
Qed.

Lemma good_energy_any columns msp a k rows m window ms last c :
  0 <= msp -> uses_column columns a Power k -> increasing rows -> complete rows -> Forall (has_reading k) m -> rows_within window rows m -> (2 <= length m)%nat ->
  row_runs msp m ms -> last_time m last -> ends_there msp rows last -> (1 <= c)%nat ->
  energy_in_good_sections columns msp a rows window c =
    Ok (match long_runs (cut_runs (long_runs ms)) with [] => None | _ => Some (sumZ (map (jl k msp) (cut_runs (long_runs ms)))) end).
Proof.
  intros Hm HU Hinc Hcp Hr Hw L Hrr Hl He Hc.
  destruct (good_framed present_all msp rows m window ms last Hm Hinc (complete_present _ Hcp) Hw L Hrr Hl He) as (us & Eg & En & HF & HN).
  destruct (framed_energy columns msp rows m window ms us c Hinc Hw L (proj1 Hrr) HN HF Hc) as (d & Ed & D1 & D2 & _).
  unfold energy_in_good_sections. rewrite (Eg c Hc). cbn [bind]. rewrite En, Ed. cbn [bind]. f_equal.
  destruct (long_runs (cut_runs (long_runs ms))) as [|p0 ps0] eqn:E0.
  - rewrite (D1 eq_refl). reflexivity.
  - destruct (D2 ltac:(discriminate) a k HU (or_introl Hr)) as [-> ->]. reflexivity.
Qed.

(** Runs of increasing rows. *)
Lemma concat_sorted {A} (ms : list (list (sample A))) p : StronglySorted slt (concat ms) -> In p ms -> StronglySorted slt p.
Proof.
  induction ms as [|q ms IH]; intros H Hin; [destruct Hin|]. cbn [concat] in H. apply sorted_app in H. destruct H as (H1 & H2 & _). destruct Hin as [->|Hin]; [exact H1|exact (IH H2 Hin)].
Qed.
Lemma cut_sorted {A} (ps : list (list (sample A))) : Forall (StronglySorted slt) ps -> Forall (StronglySorted slt) (cut_runs ps).
Proof.
  intros H. pose proof (cut_infix ps) as K. revert K H. generalize (cut_runs ps) as qs0. intros qs0 K. induction K as [|p q l l' (post & ->) K IH]; intros H; [constructor|]. apply Forall_cons_iff in H. destruct H as [H1 H2].
  apply sorted_app in H1. constructor; [tauto|exact (IH H2)].
Qed.
Lemma runs_sorted {A} (rows m : list (sample A)) window msp ms : increasing rows -> rows_within window rows m -> row_runs msp m ms -> Forall (StronglySorted slt) (long_runs ms).
Proof.
  intros Hinc Hw [E _]. rewrite Forall_forall. intros p Hp. unfold long_runs in Hp. apply filter_In in Hp. apply (concat_sorted ms); [|tauto]. rewrite E.
  exact (is_filter_sorted _ _ _ Hw (proj1 (increasing_sorted rows) Hinc)).
Qed.

Lemma energies_jl k msp ps es : 0 <= msp -> Forall (StronglySorted slt) ps -> Forall2 (energy_of_rows k msp) ps es -> es = map (jl k msp) ps.
Proof.
  intros Hm HS H. induction H as [|p e ps es H H2 IH]; [reflexivity|]. apply Forall_cons_iff in HS. destruct HS as [S1 S2]. cbn [map]. rewrite (IH S2). f_equal.
  apply energy_is_jl; [exact Hm|apply increasing_sorted; exact S1|exact H].
Qed.

Lemma good_energy columns msp a k rows m s window ms last c es :
  0 <= msp -> uses_column columns a Power k -> increasing rows -> complete rows -> rows_within window rows m -> (2 <= length m)%nat -> readings k m s ->
  row_runs msp m ms -> last_time m last -> ends_there msp rows last -> (1 <= c)%nat ->
  Forall2 (energy_of_rows k msp) (cut_runs (long_runs ms)) es ->
  energy_in_good_sections columns msp a rows window c = Ok (match long_runs (cut_runs (long_runs ms)) with [] => None | _ => Some (sumZ es) end).
Proof.
  intros Hm HU Hinc Hcp Hw L Hr Hrr Hl He Hc Hes.
  rewrite (good_energy_any columns msp a k rows m window ms last c Hm HU Hinc Hcp (readings_has _ _ _ Hr) Hw L Hrr Hl He Hc).
  rewrite (energies_jl k msp _ es Hm (cut_sorted _ (runs_sorted rows m window msp ms Hinc Hw Hrr)) Hes). reflexivity.
Qed.

Lemma cells_nonneg k (l : list (sample (list (option Z)))) s : readings k l s -> Forall (fun x => 0 <= snd x) s -> Forall (fun r => forall v, nth k (snd r) None = Some v -> 0 <= v) l.
Proof.
  induction 1 as [|r x l s [H1 H2] H IH]; intros HF; [constructor|]. apply Forall_cons_iff in HF. destruct HF as [F1 F2]. constructor; [|exact (IH F2)].
  intros v Hv. apply nth_error_nth with (d := None) in H2. rewrite H2 in Hv. injection Hv as <-. exact F1.
Qed.

Lemma jl_app k msp l1 l2 : 0 <= msp -> StronglySorted slt (l1 ++ l2) -> Forall (fun r => forall v, nth k (snd r) None = Some v -> 0 <= v) (l1 ++ l2) ->
  jl k msp l1 + jl k msp l2 <= jl k msp (l1 ++ l2).
Proof.
  intros Hm HS HF. unfold jl. rewrite map_app, dropna_app. apply joules_lose; [exact Hm| |].
  - rewrite <- dropna_app, <- map_app. apply dropna_increasing, rd_increasing. apply increasing_sorted. exact HS.
  - rewrite <- dropna_app, <- map_app. apply dropna_nonneg. exact HF.
Qed.

Lemma jl_nonneg k msp p : 0 <= msp -> StronglySorted slt p -> Forall (fun r => forall v, nth k (snd r) None = Some v -> 0 <= v) p -> 0 <= jl k msp p.
Proof.
  intros Hm HS HF. unfold jl. assert (Hi : increasing (dropna (map (rd k) p))) by (apply dropna_increasing, rd_increasing, increasing_sorted; exact HS).
  assert (Hn := dropna_nonneg k p HF). revert Hi Hn. generalize (dropna (map (rd k) p)) as l. clear -Hm. induction l as [|[t v] [|[t' v'] l] IH]; intros Hi Hn; [cbn; lia|cbn; lia|].
  cbn [increasing fst] in Hi. destruct Hi as [H1 H2]. apply Forall_cons_iff in Hn. destruct Hn as [N1 N2]. cbn [snd] in N1. specialize (IH H2 N2). cbn [joules] in *. nia.
Qed.

Lemma jl_concat k msp ms : 0 <= msp -> StronglySorted slt (concat ms) -> Forall (fun r => forall v, nth k (snd r) None = Some v -> 0 <= v) (concat ms) ->
  sumZ (map (jl k msp) (cut_runs (long_runs ms))) <= jl k msp (concat ms).
Proof.
  intros Hm. transitivity (sumZ (map (jl k msp) (long_runs ms))).
  - assert (HS : Forall (StronglySorted slt) (long_runs ms)).
    { rewrite Forall_forall. intros p Hp. unfold long_runs in Hp. apply filter_In in Hp. apply (concat_sorted ms); tauto. }
    pose proof (long_in _ ms H0) as HF. pose proof (cut_infix (long_runs ms)) as K. revert K HS HF. generalize (cut_runs (long_runs ms)) as qs0. generalize (long_runs ms) as ps0. clear -Hm. intros ps0 qs0 K.
    induction K as [|p q l l' (post & ->) K IH]; intros HS HF; [cbn; lia|]. apply Forall_cons_iff in HS, HF. destruct HS as [S1 S2], HF as [F1 F2]. cbn [map sumZ].
    specialize (IH S2 F2). pose proof (jl_app k msp p post Hm S1 F1). apply sorted_app in S1. apply Forall_app in F1. pose proof (jl_nonneg k msp post Hm (proj1 (proj2 S1)) (proj2 F1)). lia.
  - revert H H0. induction ms as [|p ms IH]; intros HS HF; [cbn; lia|]. cbn [concat] in *. pose proof (jl_app k msp p (concat ms) Hm HS HF) as J.
    apply sorted_app in HS. destruct HS as (S1 & S2 & _). apply Forall_app in HF. destruct HF as [F1 F2]. specialize (IH S2 F2). pose proof (jl_nonneg k msp p Hm S1 F1).
    unfold long_runs in *. cbn [filter]. destruct (Nat.leb 2 (length p)); cbn [map sumZ]; lia.
Qed.

Lemma good_energy_le columns msp a k rows m s window ms last c c' :
  0 <= msp -> uses_column columns a Power k -> increasing rows -> complete rows -> rows_within window rows m -> (2 <= length m)%nat -> readings k m s -> Forall (fun x => 0 <= snd x) s ->
  row_runs msp m ms -> last_time m last -> ends_there msp rows last -> (1 <= c)%nat -> (1 <= c')%nat ->
  exists o o', energy_in_good_sections columns msp a rows window c = Ok o /\ whole_energy columns msp a rows window c' = Ok o' /\ energy_value o <= energy_value o'.
Proof.
  intros Hm HU Hinc Hcp Hw L Hr Hpos Hrr Hl He Hc Hc'. pose proof (readings_has _ _ _ Hr) as Hh.
  assert (Hlen : (2 <= length rows)%nat).
  { assert (length m <= length rows)%nat; [|lia]. clear -Hw. induction Hw; cbn; lia. }
  do 2 eexists. split; [exact (good_energy_any columns msp a k rows m window ms last c Hm HU Hinc Hcp Hh Hw L Hrr Hl He Hc)|].
  split; [exact (proj1 (energy_any columns msp a k rows window m c' Hm HU Hinc Hlen Hc' Hw Hh) L)|]. cbn [energy_value].
  pose proof (is_filter_sorted _ _ _ Hw (proj1 (increasing_sorted rows) Hinc)) as HS. pose proof (cells_nonneg k m s Hr Hpos) as HF.
  destruct Hrr as [E _]. subst m. pose proof (jl_concat k msp ms Hm HS HF) as J. pose proof (jl_nonneg k msp _ Hm HS HF) as J2.
  change (joules (dropna (map (rd k) (concat ms))) msp) with (jl k msp (concat ms)).
  destruct (long_runs (cut_runs (long_runs ms))); cbn [energy_value]; lia.
Qed.

(** What is lost: the energy up to the last reading of each run but the last. *)
Lemma joules_snoc l t v t' v' msp : joules (l ++ [(t, v); (t', v')]) msp = joules (l ++ [(t, v)]) msp + Z.min (t' - t) msp * v.
Proof. rewrite (joules_app msp l (t, v) [(t', v')]). cbn [joules]. lia. Qed.

Lemma jl_less k msp (p : list (sample (list (option Z)))) s : 0 < msp -> increasing p -> (2 <= length p)%nat -> readings k p s -> Forall (fun x => 0 < snd x) s -> jl k msp (removelast p) < jl k msp p.
Proof.
  intros Hm Hi L Hr Hp. destruct p as [|z p] using rev_ind; [cbn in L; lia|]. clear IHp. destruct p as [|y p] using rev_ind; [cbn in L; lia|]. clear IHp. rewrite removelast_last. unfold jl.
  rewrite <- app_assoc in *. cbn [List.app] in *.
  apply Forall2_app_inv_l in Hr. destruct Hr as (s1 & s2 & R1 & R2 & ->). inversion R2 as [|y' a l1 l2 [A1 A2] R3]; subst. inversion R3 as [|z' b l3 l4 [B1 B2] R4]; subst. inversion R4; subst.
  apply Forall_app in Hp. destruct Hp as [_ Hp]. apply Forall_inv in Hp.
  assert (E : dropna (map (rd k) (p ++ [y; z])) = s1 ++ [a; b]) by (rewrite (readings_rd k (p ++ [y; z]) (s1 ++ [a; b])), dropna_some; [reflexivity|apply Forall2_app; assumption]).
  assert (E2 : dropna (map (rd k) (p ++ [y])) = s1 ++ [a]) by (rewrite (readings_rd k (p ++ [y]) (s1 ++ [a])), dropna_some; [reflexivity|apply Forall2_app; [exact R1|constructor; [auto|constructor]]]).
  rewrite E, E2. destruct a as [t v], b as [t' v']. rewrite joules_snoc. cbn [fst snd] in *.
  assert (fst y < fst z).
  { apply increasing_sorted in Hi. apply sorted_app in Hi. destruct Hi as (_ & Hi & _). apply StronglySorted_inv in Hi. destruct Hi as [_ Hi]. apply Forall_inv in Hi. exact Hi. }
  nia.
Qed.

Lemma good_energy_lost columns msp a k rows m s window ms last c es :
  0 < msp -> uses_column columns a Power k -> increasing rows -> complete rows -> rows_within window rows m -> (2 <= length m)%nat -> readings k m s -> Forall (fun x => 0 < snd x) s ->
  row_runs msp m ms -> last_time m last -> ends_there msp rows last -> (1 <= c)%nat -> (2 <= length (long_runs ms))%nat ->
  Forall2 (energy_of_rows k msp) (long_runs ms) es ->
  exists o, energy_in_good_sections columns msp a rows window c = Ok o /\ energy_value o < sumZ es.
Proof.
  intros Hm HU Hinc Hcp Hw L Hr Hpos Hrr Hl He Hc L2 Hes. pose proof (readings_has _ _ _ Hr) as Hh.
  eexists. split; [exact (good_energy_any columns msp a k rows m window ms last c ltac:(lia) HU Hinc Hcp Hh Hw L Hrr Hl He Hc)|].
  rewrite (energies_jl k msp _ es ltac:(lia) (runs_sorted rows m window msp ms Hinc Hw Hrr) Hes).
  pose proof (runs_sorted rows m window msp ms Hinc Hw Hrr) as HS.
  assert (HR : Forall (fun p => exists s, readings k p s /\ Forall (fun x => 0 < snd x) s) (long_runs ms)).
  { destruct Hrr as [E _]. clear -Hr Hpos E. subst m. revert s Hr Hpos. induction ms as [|p ms IH]; intros s Hr Hpos; [constructor|]. cbn [concat] in Hr. apply Forall2_app_inv_l in Hr.
    destruct Hr as (s1 & s2 & R1 & R2 & ->). apply Forall_app in Hpos. destruct Hpos as [P1 P2]. specialize (IH s2 R2 P2). unfold long_runs in *. cbn [filter].
    destruct (Nat.leb 2 (length p)); [constructor; [|exact IH]; exists s1; auto|exact IH]. }
  assert (HN : Forall (fun p => 0 <= jl k msp p /\ ((2 <= length p)%nat -> jl k msp (removelast p) < jl k msp p)) (long_runs ms)).
  { rewrite Forall_forall in *. intros p Hp. specialize (HS p Hp). destruct (HR p Hp) as (q & Q1 & Q2). split.
    - apply jl_nonneg; [lia|exact HS|]. apply (cells_nonneg k p q Q1). eapply Forall_impl; [|exact Q2]. cbv beta. intros; lia.
    - intros Lp. apply (jl_less k msp p q Hm (proj2 (increasing_sorted p) HS) Lp Q1 Q2). }
  pose proof (long_long ms) as HL.
  assert (Hlt : forall ps, Forall (fun p => 0 <= jl k msp p /\ ((2 <= length p)%nat -> jl k msp (removelast p) < jl k msp p)) ps -> Forall (fun p => (2 <= length p)%nat) ps -> 
     sumZ (map (jl k msp) (cut_runs ps)) <= sumZ (map (jl k msp) ps) /\ 0 <= sumZ (map (jl k msp) ps) /\ ((2 <= length ps)%nat -> sumZ (map (jl k msp) (cut_runs ps)) < sumZ (map (jl k msp) ps))).
  { clear. induction ps as [|p ps IH]; intros HN HL; [cbn; lia|]. apply Forall_cons_iff in HN, HL. destruct HN as [[N1 N2] N3], HL as [L1 L2]. specialize (N2 L1). destruct (IH N3 L2) as (I1 & I2 & I3).
    destruct ps as [|q ps]; [cbn in *; lia|]. change (cut_runs (p :: q :: ps)) with (removelast p :: cut_runs (q :: ps)). cbn [map sumZ] in *. lia. }
  destruct (Hlt _ HN HL) as (I1 & I2 & I3). specialize (I3 L2).
  destruct (long_runs (cut_runs (long_runs ms))) eqn:E0; cbn [energy_value]; [|lia].
  assert (Hz : forall l : list (list (sample (list (option Z)))), long_runs l = [] -> Forall (fun p => p <> []) l -> sumZ (map (jl k msp) l) = 0).
  { clear. induction l as [|p l IH]; intros E HF; [reflexivity|]. apply Forall_cons_iff in HF. destruct HF as [F1 F2]. unfold long_runs in *. cbn [filter] in E. destruct (Nat.leb 2 (length p)) eqn:Lp; [discriminate|].
    cbn [map sumZ]. rewrite (IH E F2). apply Nat.leb_gt in Lp. unfold jl. rewrite joules_few by lia. reflexivity. }
  rewrite (Hz _ E0 (cut_ne _ HL)) in I3. exact I3.
Qed.
