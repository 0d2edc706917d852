(** Proofs about the proportion of energy between two meters. *)
From Coq Require Import QArith Lqa Permutation Sorted.
From Verif Require Import Base TimeFrameModel TimeFrameSpec TimeFrameProofs StoreModel StoreSpec StoreProofs StoreProofs2 ResultsModel ResultsSpec ResultsProofs
  GoodSectionsModel GoodSectionsSpec GoodSectionsProofs EnergyModel EnergySpec EnergyProofs LoadFrames EnergyProofs2
  WholeModel WholeSpec WholeProofs GapsModel GapsSpec GapsProofs GapsProofs2 TopModel GStatsModel GStatsSpec GStatsProofs GStatsProofs2 ShareModel ShareSpec.
Import List. Open Scope Z_scope.

Definition cell (x : sample Z) : sample (list (option Z)) := (fst x, [Some (snd x)]).

(** ** Rows of a power meter *)
Lemma within_map {A B} (f : sample A -> sample B) window rows m : (forall x, fst (f x) = fst x) -> rows_within window rows m -> rows_within window (map f rows) (map f m).
Proof. unfold rows_within. intros Hf. induction 1 as [|x l m Hx F IH|x l m Hx F IH]; cbn [map]; constructor; auto; rewrite Hf; assumption. Qed.
Lemma increasing_fst {A B} (l : list (sample A)) : forall (l' : list (sample B)), map fst l' = map fst l -> increasing l -> increasing l'.
Proof.
  induction l as [|x [|y l] IH]; intros [|x' [|y' l']] E H; try discriminate; try exact I. cbn [map] in E. injection E as E1 E2 E3. destruct H as [H1 H2].
  split; [lia|]. apply (IH (y' :: l')); [cbn [map]; f_equal; assumption|exact H2].
Qed.
Lemma cell_fst s : map fst (map cell s) = map fst s.
Proof. rewrite map_map. reflexivity. Qed.
Lemma cell_complete s : complete (map cell s).
Proof. unfold complete. apply Forall_map, Forall_forall. intros x _. cbn. constructor; [discriminate|constructor]. Qed.
Lemma cell_reading s : Forall (has_reading 0) (map cell s).
Proof. apply Forall_map, Forall_forall. intros x _. unfold has_reading. cbn. try discriminate; eauto. Qed.
Lemma cell_jl msp p : jl 0 msp (map cell p) = joules p msp.
Proof. unfold jl. f_equal. induction p as [|[t v] p IH]; [reflexivity|]. cbn. f_equal. exact IH. Qed.
Lemma removelast_map {A B} (f : A -> B) l : removelast (map f l) = map f (removelast l).
Proof. induction l as [|x [|y l] IH]; [reflexivity|reflexivity|]. cbn [map removelast] in *. f_equal. exact IH. Qed.
Lemma cut_map {A B} (f : A -> B) ms : cut_runs (map (map f) ms) = map (map f) (cut_runs ms).
Proof. induction ms as [|p [|q ms] IH]; [reflexivity|reflexivity|]. cbn [map cut_runs] in *. rewrite removelast_map, IH. reflexivity. Qed.

Definition total (msp : Z) (ms : list (list (sample Z))) : Z := sumZ (map (fun p => joules p msp) (cut_runs (long_runs ms))).

Lemma one_uses a : uses_column [(Power, Some a)] a Power 0.
Proof. split; [reflexivity|]. split; [constructor; [intros []|constructor]|]. right. right. split; [reflexivity|]. split; intros [H|[]]; discriminate. Qed.

Lemma framed_energies a msp s m window ms us c :
  increasing s -> rows_within window s m -> (2 <= length m)%nat -> concat ms = m -> Forall (fun p => p <> []) ms ->
  framed (map (map fst) (long_runs ms)) us -> nonempty us = us -> (1 <= c)%nat ->
  energies_over (power_meter a msp s) window us c =
    Ok (match long_runs (cut_runs (long_runs ms)) with [] => [] | _ => [(a, Some (inject_Z (total msp ms)))] end).
Proof.
  intros Hinc Hw L Ec HN HF En Hc. unfold energies_over, power_meter. cbn [st_columns st_msp st_rows]. rewrite En. fold cell. change (fun x => (fst x, [Some (snd x)])) with cell.
  destruct (framed_energy [(Power, Some a)] msp (map cell s) (map cell m) window (map (map cell) ms) us c) as (d & Ed & D1 & D2 & D3).
  - apply (increasing_fst s); [apply cell_fst|exact Hinc].
  - apply within_map; [reflexivity|exact Hw].
  - rewrite map_length. exact L.
  - rewrite <- Ec. symmetry. apply concat_map.
  - apply Forall_map. eapply Forall_impl; [|exact HN]. intros p Hp E. apply Hp. destruct p; [reflexivity|discriminate].
  - rewrite long_map, map_map. rewrite (map_ext (fun x => map fst (map cell x)) (map fst)) by (intros; apply cell_fst). exact HF.
  - exact Hc.
  - rewrite Ed. cbn [bind]. f_equal. rewrite long_map, cut_map, long_map in D1, D2.
    destruct (long_runs (cut_runs (long_runs ms))) as [|p ps] eqn:E0.
    + rewrite (D1 eq_refl). reflexivity.
    + destruct (D2 ltac:(discriminate) a 0%nat (one_uses a) (or_introl (cell_reading m))) as [C1 C2].
      assert (C3 : forall b, b <> a -> has_col (en_get b) d = false) by (intros b Hb; apply D3; intros q [Hq|[]]; injection Hq as <- <-; apply Hb; reflexivity).
      rewrite map_map in C2. rewrite (map_ext _ (fun p => joules p msp)) in C2 by (intros; apply cell_jl). fold (total msp ms) in C2.
      cbn [flat_map]. destruct a; rewrite C1, C2, !C3 by discriminate; reflexivity.
Qed.

(** ** Meters that report at the same times *)
Lemma split_like {A B} (ms : list (list (sample A))) : forall (m' : list (sample B)), map fst m' = map fst (concat ms) -> exists ms', concat ms' = m' /\ same_times ms' ms.
Proof.
  induction ms as [|p ms IH]; intros m' E; cbn [concat map] in E.
  - apply map_eq_nil in E. subst m'. exists []. split; reflexivity.
  - rewrite map_app in E. apply map_eq_app in E. destruct E as (q & m0 & -> & E1 & E2). destruct (IH m0 E2) as (ms' & <- & H). exists (q :: ms'). split; [reflexivity|].
    unfold same_times in *. cbn [map]. rewrite E1, H. reflexivity.
Qed.
Lemma within_like {A B} window (s m : list (sample A)) : rows_within window s m -> forall (s' : list (sample B)), map fst s' = map fst s ->
  exists m', rows_within window s' m' /\ map fst m' = map fst m.
Proof.
  unfold rows_within. induction 1 as [|x l m Hx F IH|x l m Hx F IH]; intros [|x' s'] E; try discriminate.
  - exists []. split; constructor.
  - cbn [map] in E. injection E as E1 E2. destruct (IH s' E2) as (m' & H1 & H2). exists (x' :: m'). split; [constructor; [rewrite E1; exact Hx|exact H1]|]. cbn [map]. congruence.
  - cbn [map] in E. injection E as E1 E2. destruct (IH s' E2) as (m' & H1 & H2). exists m'. split; [apply filt_drop; [rewrite E1; exact Hx|exact H1]|exact H2].
Qed.
Lemma within_unique {A} (P : A -> Prop) s m : is_filter P s m -> forall m', is_filter P s m' -> m' = m.
Proof. induction 1 as [|x l m Hx F IH|x l m Hx F IH]; intros m' H; inversion H; subst; try contradiction; [reflexivity|f_equal; auto|auto]. Qed.
Lemma same_concat {A B} (ms' : list (list (sample A))) (ms : list (list (sample B))) : same_times ms' ms -> map fst (concat ms') = map fst (concat ms).
Proof. unfold same_times. intros H. rewrite !concat_map, H. reflexivity. Qed.
Lemma same_ne {A B} (ms' : list (list (sample A))) (ms : list (list (sample B))) : same_times ms' ms -> Forall (fun p => p <> []) ms -> Forall (fun p => p <> []) ms'.
Proof.
  unfold same_times. revert ms. induction ms' as [|p' ms' IH]; intros [|p ms] E H; try discriminate; [constructor|]. cbn [map] in E. injection E as E1 E2. apply Forall_cons_iff in H. destruct H as [H1 H2].
  constructor; [|exact (IH ms E2 H2)]. intros ->. cbn in E1. symmetry in E1. apply map_eq_nil in E1. contradiction.
Qed.
Lemma same_long {A B} (ms' : list (list (sample A))) (ms : list (list (sample B))) : same_times ms' ms -> same_times (long_runs ms') (long_runs ms).
Proof. unfold same_times. intros H. rewrite <- !long_map, H. reflexivity. Qed.
Lemma same_cut {A B} (ms' : list (list (sample A))) (ms : list (list (sample B))) : same_times ms' ms -> same_times (cut_runs ms') (cut_runs ms).
Proof. unfold same_times. intros H. rewrite <- !cut_map, H. reflexivity. Qed.
Lemma same_nil {A B} (ms' : list (list (sample A))) (ms : list (list (sample B))) : same_times ms' ms -> ms = [] <-> ms' = [].
Proof. unfold same_times. intros H. split; intros ->; [apply map_eq_nil in H; exact H|symmetry in H; apply map_eq_nil in H; exact H]. Qed.

Definition pieces {A} (ms : list (list A)) := long_runs (cut_runs (long_runs ms)).
Lemma same_pieces {A B} (ms' : list (list (sample A))) (ms : list (list (sample B))) : same_times ms' ms -> same_times (pieces ms') (pieces ms).
Proof. intros H. apply same_long, same_cut, same_long. exact H. Qed.
Definition entry_of (a : actype) (e : Z) (ps : list (list (sample Z))) : series := match ps with [] => [] | _ => [(a, Some (inject_Z e))] end.

(** The energies of all meters, over the good sections of the mains. *)
Lemma share_sections a msp s m window ms last :
  0 <= msp -> increasing s -> rows_within window s m -> (2 <= length m)%nat -> row_runs msp m ms -> last_time m last -> ends_there msp s last ->
  exists us, (forall c, (1 <= c)%nat -> good_of (power_meter a msp s) window c = Ok us) /\
    forall b msp' s' m' ms' c, map fst s' = map fst s -> rows_within window s' m' -> concat ms' = m' -> same_times ms' ms -> (1 <= c)%nat ->
      energies_over (power_meter b msp' s') window us c = Ok (entry_of b (total msp' ms') (pieces ms)).
Proof.
  intros Hm Hinc Hw L Hrr Hl He.
  destruct (good_framed present_all msp (map cell s) (map cell m) window (map (map cell) ms) last) as (us & Eg & En & HF & HN).
  - exact Hm.
  - apply (increasing_fst s); [apply cell_fst|exact Hinc].
  - apply complete_present, cell_complete.
  - apply within_map; [reflexivity|exact Hw].
  - rewrite map_length. exact L.
  - destruct Hrr as [E1 E2]. split; [rewrite <- E1; symmetry; apply concat_map|]. rewrite cell_fst, map_map.
    rewrite (map_ext (fun x => map fst (map cell x)) (map fst)) by (intros; apply cell_fst). exact E2.
  - destruct Hl as (z & q & -> & <-). exists (cell z), (map cell q). split; [rewrite map_app; reflexivity|reflexivity].
  - intros r Hr. apply in_map_iff in Hr. destruct Hr as (x & <- & Hx). exact (He x Hx).
  - assert (HF' : framed (map (map fst) (long_runs ms)) us).
    { rewrite long_map, map_map in HF. rewrite (map_ext (fun x => map fst (map cell x)) (map fst)) in HF by (intros; apply cell_fst). exact HF. }
    assert (HN' : Forall (fun p => p <> []) ms) by (destruct Hrr as [_ (_ & K & _)]; rewrite Forall_forall in K |- *; intros p Hp ->; destruct (K (map fst (@nil (sample Z))) (in_map _ _ _ Hp)) as [K1 _]; apply K1; reflexivity).
    exists us. split; [exact Eg|]. intros b msp' s' m' ms' c Et Hw' Ec Hs Hc.
    rewrite (framed_energies b msp' s' m' window ms' us c); try assumption.
    + unfold entry_of. f_equal. fold (pieces ms'). pose proof (same_nil _ _ (same_pieces _ _ Hs)) as K. destruct (pieces ms), (pieces ms'); try reflexivity; [destruct K as [K _]; discriminate (K eq_refl)|destruct K as [_ K]; discriminate (K eq_refl)].
    + exact (increasing_fst s s' Et Hinc).
    + destruct Hrr as [E1 _]. rewrite <- Ec, <- (map_length fst), (same_concat _ _ Hs), map_length, E1. exact L.
    + exact (same_ne _ _ Hs HN').
    + rewrite (same_long _ _ Hs). exact HF'.
Qed.

Lemma total_no_pieces msp ms : pieces ms = [] -> total msp ms = 0.
Proof.
  unfold pieces, total. generalize (cut_runs (long_runs ms)) as ps. clear ms. induction ps as [|p ps IH]; intros H; [reflexivity|].
  unfold long_runs in H. cbn [filter] in H. destruct (Nat.leb 2 (length p)) eqn:E; [discriminate|]. cbn [map sumZ]. fold (long_runs ps) in H. rewrite (IH H).
  destruct p as [|[t v] [|[t' v'] p]]; [reflexivity|reflexivity|cbn in E; discriminate].
Qed.

(** The proportion, given the energies. *)
Lemma entry_proportion a b e e' ps : (ps = [] -> e = 0) ->
  (if Qeq_bool (series_sum (map snd (entry_of a e ps))) 0 then Ok NaN else proportion_of_energy (entry_of b e' ps) (entry_of a e ps)) = 
  (if e =? 0 then Ok NaN else Ok (Fin (inject_Z e' / inject_Z e))).
Proof.
  intros H. unfold entry_of. destruct ps as [|p ps]; [rewrite (H eq_refl); reflexivity|].
  assert (S0 : Qeq_bool (series_sum (map snd [(a, Some (inject_Z e))])) 0 = (e =? 0)).
  { cbn [map snd]. unfold series_sum. cbn. unfold Qeq_bool, Zeq_bool, Qplus, inject_Z; cbn. rewrite ?Z.mul_1_r, ?Z.add_0_r. destruct (Z.compare_spec e 0), (Z.eqb_spec e 0); try reflexivity; lia. }
  unfold proportion_of_energy. rewrite S0. destruct (e =? 0) eqn:E; [reflexivity|].
  assert (R : ratio (Some (inject_Z e')) (Some (inject_Z e)) = Fin (inject_Z e' / inject_Z e)).
  { unfold ratio, divide. replace (Qeq_bool (inject_Z e) 0) with (e =? 0); [rewrite E; reflexivity|].
    unfold Qeq_bool, Zeq_bool, inject_Z; cbn. rewrite Z.mul_1_r. destruct (Z.compare_spec e 0), (Z.eqb_spec e 0); try reflexivity; lia. }
  destruct a, b; cbv beta iota zeta delta [shared_types lookup ac_eqb filter ratio_at energy_at best_type find bind]; rewrite R; reflexivity.
Qed.

Lemma proportion_value a b msp msp' mains own m m' window ms ms' last c :
  0 <= msp -> increasing mains -> map fst own = map fst mains -> rows_within window mains m -> rows_within window own m' -> (2 <= length m)%nat ->
  row_runs msp m ms -> concat ms' = m' -> same_times ms' ms -> last_time m last -> ends_there msp mains last -> (1 <= c)%nat ->
  stored_proportion (power_meter b msp' own) (power_meter a msp mains) window c =
    (if total msp ms =? 0 then Ok NaN else Ok (Fin (inject_Z (total msp' ms') / inject_Z (total msp ms)))).
Proof.
  intros Hm Hinc Et Hw Hw' L Hrr Ec Hs Hl He Hc. destruct (share_sections a msp mains m window ms last Hm Hinc Hw L Hrr Hl He) as (us & Eg & HE).
  unfold stored_proportion. rewrite (Eg c Hc). cbn [bind].
  rewrite (HE a msp mains m ms c eq_refl Hw (proj1 Hrr) eq_refl Hc). cbn [bind].
  rewrite (HE b msp' own m' ms' c Et Hw' Ec Hs Hc). cbn [bind].
  rewrite (entry_proportion a b (total msp ms) (total msp' ms') (pieces ms) (total_no_pieces msp ms)). reflexivity.
Qed.

Lemma joules_total msp (ms : list (list (sample Z))) es : 0 <= msp -> Forall (StronglySorted slt) (cut_runs (long_runs ms)) -> Forall2 (is_energy msp) (cut_runs (long_runs ms)) es -> sumZ es = total msp ms.
Proof.
  intros Hm HS H. unfold total. f_equal. revert HS. induction H as [|p e ps es H H2 IH]; intros HS; [reflexivity|]. apply Forall_cons_iff in HS. destruct HS as [S1 S2]. cbn [map]. rewrite (IH S2). f_equal.
  symmetry. apply (is_energy_unique msp p); [|exact H]. apply joules_is_energy; [exact Hm|apply increasing_sorted; exact S1].
Qed.
Lemma same_sorted (ms' ms : list (list (sample Z))) : same_times ms' ms -> Forall (StronglySorted slt) ms -> Forall (StronglySorted slt) ms'.
Proof.
  unfold same_times. revert ms. induction ms' as [|p' ms' IH]; intros [|p ms] E H; try discriminate; [constructor|]. cbn [map] in E. injection E as E1 E2. apply Forall_cons_iff in H. destruct H as [H1 H2].
  constructor; [|exact (IH ms E2 H2)]. apply increasing_sorted. apply (increasing_fst p); [exact E1|apply increasing_sorted; exact H1].
Qed.

Lemma proportion_exact a b msp msp' mains own m m' window ms ms' last c es es' :
  0 <= msp -> 0 <= msp' -> increasing mains -> map fst own = map fst mains -> rows_within window mains m -> rows_within window own m' -> (2 <= length m)%nat ->
  row_runs msp m ms -> concat ms' = m' -> same_times ms' ms -> last_time m last -> ends_there msp mains last -> (1 <= c)%nat ->
  Forall2 (is_energy msp) (cut_runs (long_runs ms)) es -> Forall2 (is_energy msp') (cut_runs (long_runs ms')) es' ->
  (sumZ es = 0 -> stored_proportion (power_meter b msp' own) (power_meter a msp mains) window c = Ok NaN) /\
  (sumZ es <> 0 -> exists q, stored_proportion (power_meter b msp' own) (power_meter a msp mains) window c = Ok (Fin q) /\ (q * inject_Z (sumZ es) == inject_Z (sumZ es'))%Q).
Proof.
  intros Hm Hm' Hinc Et Hw Hw' L Hrr Ec Hs Hl He Hc H1 H2.
  pose proof (cut_sorted _ (runs_sorted mains m window msp ms Hinc Hw Hrr)) as HS.
  rewrite (proportion_value a b msp msp' mains own m m' window ms ms' last c Hm Hinc Et Hw Hw' L Hrr Ec Hs Hl He Hc).
  rewrite (joules_total msp ms es Hm HS H1), (joules_total msp' ms' es' Hm' (same_sorted _ _ (same_cut _ _ (same_long _ _ Hs)) HS) H2).
  split; intros E; [rewrite E; reflexivity|]. destruct (Z.eqb_spec (total msp ms) 0); [contradiction|]. eexists. split; [reflexivity|].
  field. unfold Qeq, inject_Z. cbn. lia.
Qed.
