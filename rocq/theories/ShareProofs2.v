(** Proofs that proportions of energy of meters with a common clock are between 0 and 1. *)
From Coq Require Import QArith Lqa Permutation Sorted.
From Verif Require Import Base TimeFrameModel TimeFrameSpec TimeFrameProofs StoreModel StoreSpec StoreProofs StoreProofs2 ResultsModel ResultsSpec ResultsProofs
  GoodSectionsModel GoodSectionsSpec GoodSectionsProofs EnergyModel EnergySpec EnergyProofs LoadFrames EnergyProofs2
  WholeModel WholeSpec WholeProofs GapsModel GapsSpec GapsProofs GapsProofs2 GapsProofs3 TopModel GStatsModel GStatsSpec GStatsProofs GStatsProofs2 ShareModel ShareSpec ShareProofs.
Import List. Open Scope Z_scope.

(** ** Energy is a weighted sum of the readings *)
Fixpoint dot (w x : list Z) : Z := match w, x with a :: w', b :: x' => a * b + dot w' x' | _, _ => 0 end.
Fixpoint wj (msp : Z) (ts : list Z) : list Z :=
  match ts with
  | t :: ((t' :: _) as r) => Z.min (t' - t) msp :: wj msp r
  | [_] => [0]
  | [] => []
  end.
Lemma dot_app w1 : forall w2 x1 x2, length w1 = length x1 -> dot (w1 ++ w2) (x1 ++ x2) = dot w1 x1 + dot w2 x2.
Proof. induction w1 as [|a w1 IH]; intros w2 [|b x1] x2 H; try discriminate; [cbn; lia|]. cbn [List.app dot]. rewrite IH by (cbn in H; lia). lia. Qed.
Lemma dot_zero n : forall x, dot (repeat 0 n) x = 0.
Proof. induction n as [|n IH]; intros [|b x]; try reflexivity. cbn [repeat dot]. rewrite IH. lia. Qed.
Lemma wj_length msp ts : length (wj msp ts) = length ts.
Proof. induction ts as [|t [|t' r] IH]; [reflexivity|reflexivity|]. cbn [wj length] in *. lia. Qed.
Lemma joules_dot msp p : joules p msp = dot (wj msp (map fst p)) (map snd p).
Proof. induction p as [|[t v] [|[t' v'] p] IH]; [reflexivity|cbn; lia|]. cbn [joules map wj dot fst snd] in *. rewrite IH. reflexivity. Qed.

Fixpoint ws (msp : Z) (tms : list (list Z)) : list Z :=
  match tms with
  | [] => []
  | ts :: r => (if Nat.leb 2 (length ts) then match long_runs r with [] => wj msp ts | _ => wj msp (removelast ts) ++ [0] end else repeat 0 (length ts)) ++ ws msp r
  end.

Lemma removelast_length {A} (l : list A) : length (removelast l) = Nat.pred (length l).
Proof. induction l as [|x [|y l] IH]; [reflexivity|reflexivity|]. cbn [removelast length] in *. rewrite IH. reflexivity. Qed.

Lemma ws_head msp ts (r : list (list Z)) : (ts <> [])%list -> length (if Nat.leb 2 (length ts) then match long_runs r with [] => wj msp ts | _ => wj msp (removelast ts) ++ [0] end else repeat 0 (length ts)) = length ts.
Proof.
  intros H. destruct (Nat.leb 2 (length ts)) eqn:E; [|apply repeat_length]. destruct (long_runs r); [apply wj_length|].
  rewrite app_length, wj_length, removelast_length. apply Nat.leb_le in E. cbn. lia.
Qed.

Lemma total_dot msp ms : Forall (fun p => p <> []) ms -> total msp ms = dot (ws msp (map (map fst) ms)) (map snd (concat ms)).
Proof.
  induction ms as [|p ms IH]; intros HN; [reflexivity|]. apply Forall_cons_iff in HN. destruct HN as [N1 N2]. cbn [map ws concat]. rewrite map_app.
  rewrite dot_app by (rewrite ws_head, !map_length; [reflexivity|]; destruct p; [contradiction|discriminate]).
  rewrite <- (IH N2). unfold total, long_runs at 1. cbn [filter]. rewrite map_length. fold (long_runs ms).
  destruct (Nat.leb 2 (length p)) eqn:E; [|rewrite dot_zero; reflexivity].
  rewrite long_map. destruct (long_runs ms) as [|q qs] eqn:EL.
  - cbn [cut_runs map sumZ]. rewrite joules_dot. cbn [map]. lia.
  - cbn [map]. change (cut_runs (p :: q :: qs)) with (removelast p :: cut_runs (q :: qs)). cbn [map sumZ]. f_equal.
    assert (Hp : p = removelast p ++ [last p (0, 0)]) by (apply app_removelast_last; exact N1).
    assert (Hv : map snd p = map snd (removelast p) ++ [snd (last p (0, 0))]) by (rewrite Hp at 1; rewrite map_app; reflexivity).
    rewrite removelast_map, joules_dot, Hv, dot_app by (rewrite wj_length, !map_length; reflexivity). cbn [map dot]. lia.
Qed.

(** ** Comparison of weighted sums *)
Lemma dot_le w w' x x' : Forall2 (fun a b => 0 <= a <= b) w w' -> Forall2 (fun a b => 0 <= a <= b) x x' -> 0 <= dot w x <= dot w' x'.
Proof.
  intros H. revert x x'. induction H as [|a b w w' H H2 IH]; intros x x' K; [cbn; lia|]. inversion K as [|c d y y' C1 C2]; subst; [cbn; lia|].
  cbn [dot]. specialize (IH _ _ C2). nia.
Qed.
Lemma dot_plus w : forall x y, map fst x = map fst y -> dot w (map snd (plus x y)) = dot w (map snd x) + dot w (map snd y).
Proof. induction w as [|a w IH]; intros [|[t u] x] [|[t' v] y] E; try discriminate; try reflexivity. cbn [map] in E. injection E as _ E. cbn [plus map snd dot]. rewrite (IH _ _ E). lia. Qed.
Lemma plus_fst x : forall y, map fst x = map fst y -> map fst (plus x y) = map fst x.
Proof. induction x as [|u x IH]; intros [|v y] E; try discriminate; [reflexivity|]. cbn [map plus fst] in *. injection E as _ E. rewrite (IH _ E). reflexivity. Qed.
Lemma plus_nonneg x : forall y, not_negative x -> not_negative y -> not_negative (plus x y).
Proof.
  unfold not_negative. induction x as [|u x IH]; intros [|v y] H1 H2; try constructor; apply Forall_cons_iff in H1, H2; destruct H1 as [H1 H1'], H2 as [H2 H2'].
  - cbn. lia.
  - exact (IH y H1' H2').
Qed.

Lemma wj_le msp msp' ts : 0 <= msp' -> gap_free msp ts -> StronglySorted Z.lt ts -> Forall2 (fun a b => 0 <= a <= b) (wj msp' ts) (wj msp ts).
Proof.
  intros Hm. induction ts as [|t [|t' r] IH]; intros HG HS; [constructor|constructor; [lia|constructor]|]. destruct HG as [G1 G2]. apply StronglySorted_inv in HS. destruct HS as [S1 S2].
  apply Forall_cons_iff in S2. destruct S2 as [S2 _]. change (Forall2 (fun a b => 0 <= a <= b) (Z.min (t' - t) msp' :: wj msp' (t' :: r)) (Z.min (t' - t) msp :: wj msp (t' :: r))).
  constructor; [lia|]. apply IH; assumption.
Qed.
Lemma gap_removelast msp ts : gap_free msp ts -> gap_free msp (removelast ts).
Proof. induction ts as [|t [|t' [|t'' r]] IH]; intros H; try exact I. destruct H as [H1 H2]. specialize (IH H2). change (gap_free msp (t :: t' :: removelast (t'' :: r))). split; [exact H1|exact IH]. Qed.
Lemma sorted_removelast ts : StronglySorted Z.lt ts -> StronglySorted Z.lt (removelast ts).
Proof.
  destruct ts as [|t r]; [intros; constructor|]. intros H. rewrite (app_removelast_last 0) in H at 1 by discriminate.
  revert H. generalize (removelast (t :: r)) as l. intros l. induction l as [|x l IH]; intros H; [constructor|]. cbn [List.app] in H. apply StronglySorted_inv in H. destruct H as [H1 H2].
  constructor; [exact (IH H1)|]. apply Forall_app in H2. tauto.
Qed.
Lemma ws_le msp msp' tms : 0 <= msp' -> Forall (fun ts => gap_free msp ts /\ StronglySorted Z.lt ts) tms -> Forall2 (fun a b => 0 <= a <= b) (ws msp' tms) (ws msp tms).
Proof.
  intros Hm. induction 1 as [|ts r [G S] HF IH]; [constructor|]. cbn [ws]. apply Forall2_app; [|exact IH].
  destruct (Nat.leb 2 (length ts)).
  - destruct (long_runs r); [apply wj_le; assumption|]. apply Forall2_app; [apply wj_le; [exact Hm|apply gap_removelast; exact G|apply sorted_removelast; exact S]|constructor; [lia|constructor]].
  - induction (length ts) as [|n IHn]; [constructor|]. cbn [repeat]. constructor; [lia|exact IHn].
Qed.

(** ** The runs of the mains *)
Lemma rows_split msp (m : list (sample Z)) : m <> [] -> exists ms, row_runs msp m ms.
Proof.
  intros H. destruct (runs_exist msp (map fst m)) as (rs & Hr); [destruct m; [contradiction|discriminate]|]. destruct Hr as (E & R).
  assert (K : exists ms : list (list (sample Z)), concat ms = m /\ map (map fst) ms = rs).
  { clear H R. revert m E. induction rs as [|r rs IH]; intros m E; cbn [concat] in E.
    - symmetry in E. apply map_eq_nil in E. subst m. exists []. split; reflexivity.
    - symmetry in E. apply map_eq_app in E. destruct E as (q & m0 & -> & E1 & E2). destruct (IH m0 (eq_sym E2)) as (ms & <- & H). exists (q :: ms). split; [reflexivity|]. cbn [map]. rewrite E1, H. reflexivity. }
  destruct K as (ms & K1 & K2). exists ms. split; [exact K1|]. rewrite K2. split; [exact E|exact R].
Qed.
Lemma runs_ne msp (m : list (sample Z)) ms : row_runs msp m ms -> Forall (fun p => p <> []) ms.
Proof. intros [_ (_ & K & _)]. rewrite Forall_forall in K |- *. intros p Hp ->. destruct (K (map fst (@nil (sample Z))) (in_map _ _ _ Hp)) as [K1 _]. apply K1. reflexivity. Qed.
Lemma slt_times (p : list (sample Z)) : StronglySorted slt p -> StronglySorted Z.lt (map fst p).
Proof. induction 1 as [|x l H IH HF]; [constructor|]. cbn [map]. constructor; [exact IH|]. apply Forall_map. exact HF. Qed.
Lemma runs_times msp (s m : list (sample Z)) window ms : increasing s -> rows_within window s m -> row_runs msp m ms ->
  Forall (fun ts => gap_free msp ts /\ StronglySorted Z.lt ts) (map (map fst) ms).
Proof.
  intros Hinc Hw Hrr. apply Forall_map. rewrite Forall_forall. intros p Hp. split.
  - destruct Hrr as [_ (_ & K & _)]. rewrite Forall_forall in K. exact (proj2 (K _ (in_map _ _ _ Hp))).
  - apply slt_times, (concat_sorted ms); [|exact Hp]. rewrite (proj1 Hrr). exact (is_filter_sorted _ _ _ Hw (proj1 (increasing_sorted s) Hinc)).
Qed.

Lemma filter_nonneg P (s m : list (sample Z)) : is_filter P s m -> not_negative s -> not_negative m.
Proof. unfold not_negative. induction 1 as [|x l m Hx F IH|x l m Hx F IH]; intros HF; [constructor| |]; apply Forall_cons_iff in HF; destruct HF as [H1 H2]; [constructor; auto|auto]. Qed.
Lemma filter_at_most window (b mb : list (sample Z)) : rows_within window b mb -> forall a ma, at_most a b -> rows_within window a ma -> at_most ma mb.
Proof.
  unfold rows_within, at_most. induction 1 as [|y l m Hy F IH|y l m Hy F IH]; intros a ma HA HF; inversion HA as [|x ? a' ? [E1 E2] HA']; subst.
  - inversion HF. constructor.
  - inversion HF; subst; [constructor; [split; assumption|eapply IH; eassumption]|rewrite E1 in *; contradiction].
  - inversion HF; subst; [rewrite E1 in *; contradiction|eapply IH; eassumption].
Qed.
Lemma at_most_fst a b : at_most a b -> map fst a = map fst b.
Proof. induction 1 as [|x y a b [E _] H IH]; [reflexivity|]. cbn [map]. congruence. Qed.
Lemma at_most_values a b : not_negative a -> at_most a b -> Forall2 (fun u v => 0 <= u <= v) (map snd a) (map snd b).
Proof. intros N H. induction H as [|x y a b [_ E] H IH]; [constructor|]. apply Forall_cons_iff in N. destruct N as [N1 N2]. cbn [map]. constructor; [lia|exact (IH N2)]. Qed.

Lemma unit_ratio x y : 0 <= x <= y -> y <> 0 -> in_unit (inject_Z x / inject_Z y).
Proof.
  intros H Hy. assert (P : (0 < inject_Z y)%Q) by (unfold Qlt, inject_Z; cbn; lia). split.
  - apply Qle_shift_div_l; [exact P|]. rewrite Qmult_0_l. unfold Qle, inject_Z; cbn [Qnum Qden]. lia.
  - apply Qle_shift_div_r; [exact P|]. rewrite Qmult_1_l. unfold Qle, inject_Z; cbn [Qnum Qden]. lia.
Qed.

Lemma total_le msp msp' (s s' m m' : list (sample Z)) window ms ms' : 0 <= msp' -> increasing s -> rows_within window s m -> row_runs msp m ms ->
  rows_within window s' m' -> concat ms' = m' -> same_times ms' ms -> not_negative s' -> at_most s' s -> 0 <= total msp' ms' <= total msp ms.
Proof.
  intros Hm' Hinc Hw Hrr Hw' Ec Hs HN HA. pose proof (runs_ne _ _ _ Hrr) as Hne.
  rewrite (total_dot msp' ms' (same_ne _ _ Hs Hne)), (total_dot msp ms Hne). rewrite Hs, Ec, (proj1 Hrr).
  apply dot_le; [apply ws_le; [exact Hm'|exact (runs_times msp s m window ms Hinc Hw Hrr)]|].
  apply at_most_values; [exact (filter_nonneg _ _ _ Hw' HN)|]. exact (filter_at_most window s m Hw s' m' HA Hw').
Qed.

Lemma proportion_unit a b msp msp' mains own m window last c :
  0 <= msp -> 0 <= msp' -> increasing mains -> not_negative own -> at_most own mains -> rows_within window mains m -> (2 <= length m)%nat ->
  last_time m last -> ends_there msp mains last -> (1 <= c)%nat ->
  exists r, stored_proportion (power_meter b msp' own) (power_meter a msp mains) window c = Ok r /\ (r = NaN \/ exists q, r = Fin q /\ in_unit q).
Proof.
  intros Hm Hm' Hinc HN HA Hw L Hl He Hc. destruct (rows_split msp m) as (ms & Hrr); [intros ->; cbn in L; lia|].
  pose proof (at_most_fst _ _ HA) as Et. destruct (within_like window mains m Hw own Et) as (m' & Hw' & Em).
  destruct (split_like ms m') as (ms' & Ec & Hs); [rewrite (proj1 Hrr); exact Em|].
  rewrite (proportion_value a b msp msp' mains own m m' window ms ms' last c Hm Hinc Et Hw Hw' L Hrr Ec Hs Hl He Hc).
  pose proof (total_le msp msp' mains own m m' window ms ms' Hm' Hinc Hw Hrr Hw' Ec Hs HN HA) as HT.
  destruct (Z.eqb_spec (total msp ms) 0) as [E|E]; eexists; (split; [reflexivity|]); [left; reflexivity|right; eexists; split; [reflexivity|apply unit_ratio; assumption]].
Qed.

(** ** Several submeters *)
Lemma sums_fst (s : list (sample Z)) ss : Forall (fun x => map fst x = map fst s) ss -> map fst (fold_right plus (nothing s) ss) = map fst s.
Proof.
  induction 1 as [|x ss H HF IH]; [unfold nothing; cbn; rewrite map_map; reflexivity|]. cbn [fold_right]. rewrite plus_fst; [exact H|]. rewrite H, IH. reflexivity.
Qed.
Lemma sums_nonneg (s : list (sample Z)) ss : Forall not_negative ss -> not_negative (fold_right plus (nothing s) ss).
Proof.
  induction 1 as [|x ss H HF IH]; [|apply plus_nonneg; assumption]. cbn. unfold nothing, not_negative. apply Forall_map, Forall_forall. intros. cbn. lia.
Qed.
Lemma filter_plus window x mx : rows_within window x mx -> forall y my, map fst x = map fst y -> rows_within window y my -> rows_within window (plus x y) (plus mx my).
Proof.
  unfold rows_within. induction 1 as [|u l m Hu F IH|u l m Hu F IH]; intros [|v y] my E H; try discriminate; cbn [map] in E.
  - inversion H. constructor.
  - injection E as E1 E2. inversion H; subst; [|rewrite <- E1 in *; contradiction]. cbn [plus]. apply filt_keep; [exact Hu|]. apply IH; assumption.
  - injection E as E1 E2. inversion H; subst; [rewrite <- E1 in *; contradiction|]. cbn [plus]. apply filt_drop; [exact Hu|]. apply IH; assumption.
Qed.

Definition part_of (mains m : list (sample Z)) (ms : list (list (sample Z))) window (x : Z * list (sample Z)) (t : Z) : Prop :=
  exists m' ms', map fst (snd x) = map fst mains /\ rows_within window (snd x) m' /\ concat ms' = m' /\ same_times ms' ms /\ t = total (fst x) ms'.

Lemma parts_exist msp mains m window ms : rows_within window mains m -> row_runs msp m ms ->
  forall xs, Forall (fun x => map fst (snd x) = map fst mains) xs -> exists ts, Forall2 (part_of mains m ms window) xs ts.
Proof.
  intros Hw Hrr. induction 1 as [|x xs Ex H (ts & IH)]; [exists []; constructor|].
  destruct (within_like window mains m Hw (snd x) Ex) as (m' & Hw' & Em). destruct (split_like ms m') as (ms' & Ec & Hs); [rewrite (proj1 Hrr); exact Em|].
  exists (total (fst x) ms' :: ts). constructor; [|exact IH]. exists m', ms'. auto.
Qed.

Lemma sums_total msp mains m window ms : increasing mains -> rows_within window mains m -> row_runs msp m ms ->
  forall xs ts, Forall2 (part_of mains m ms window) xs ts -> Forall (fun x => 0 <= fst x /\ not_negative (snd x)) xs ->
  exists w mw, rows_within window (fold_right plus (nothing mains) (map snd xs)) mw /\ map fst mw = map fst m /\ w = ws msp (map (map fst) ms) /\
    0 <= sumZ ts <= dot w (map snd mw) /\ Forall (fun t => 0 <= t) ts.
Proof.
  intros Hinc Hw Hrr. pose proof (runs_times msp mains m window ms Hinc Hw Hrr) as HT. pose proof (runs_ne _ _ _ Hrr) as Hne.
  induction 1 as [|x t xs ts (m' & ms' & Et & Hw' & Ec & Hs & ->) H IH]; intros HP.
  - exists (ws msp (map (map fst) ms)), (nothing m). cbn [map fold_right sumZ]. split; [unfold nothing; apply within_map; [reflexivity|exact Hw]|].
    split; [unfold nothing; rewrite map_map; reflexivity|]. split; [reflexivity|]. split; [|constructor].
    assert (E : forall w, dot w (map snd (nothing m)) = 0). { clear. unfold nothing. intros w. revert m. induction w as [|a w IH]; intros [|x m]; try reflexivity. cbn [map snd dot]. rewrite IH. lia. }
    rewrite E. lia.
  - apply Forall_cons_iff in HP. destruct HP as [[P1 P2] HP]. destruct (IH HP) as (w & mw & W1 & W2 & -> & W3 & W4).
    assert (E1 : map fst m' = map fst m) by (rewrite <- Ec, (same_concat _ _ Hs), (proj1 Hrr); reflexivity).
    exists (ws msp (map (map fst) ms)), (plus m' mw). cbn [map fold_right sumZ].
    assert (Hx : map fst (snd x) = map fst (fold_right plus (nothing mains) (map snd xs))).
    { rewrite sums_fst; [exact Et|]. clear -H. induction H as [|y t ys ts (m0 & ms0 & E & _) H IH]; [constructor|]. cbn [map]. constructor; assumption. }
    split; [apply filter_plus; assumption|].
    split; [rewrite plus_fst; [exact E1|rewrite E1, W2; reflexivity]|]. split; [reflexivity|].
    rewrite dot_plus by (rewrite E1, W2; reflexivity).
    assert (T0 : 0 <= total (fst x) ms' <= dot (ws msp (map (map fst) ms)) (map snd m')).
    { rewrite (total_dot (fst x) ms' (same_ne _ _ Hs Hne)), Hs, Ec. apply dot_le; [apply ws_le; [exact P1|exact HT]|].
      pose proof (filter_nonneg _ _ _ Hw' P2) as N. clear -N. induction N as [|y l Hy N IH]; [constructor|]. cbn [map]. constructor; [lia|exact IH]. }
    split; [lia|]. constructor; [lia|exact W4].
Qed.

Lemma submetered_fold mains window c T : forall (xs : list stored) ts, Forall2 (fun x t => stored_proportion x mains window c = Ok (Fin (inject_Z t / inject_Z T))) xs ts ->
  T <> 0 -> forall q b, exists q',
  foldM (fun acc m => do p <- stored_proportion m mains window c; match p with NaN => Ok acc | _ => Ok (add_num (fst acc) p, false) end) xs (Fin q, b) =
    Ok (Fin q', match xs with [] => b | _ => false end) /\ (q' == q + inject_Z (sumZ ts) / inject_Z T)%Q.
Proof.
  intros xs ts H HT. assert (NZ : ~ (inject_Z T == 0)%Q) by (unfold Qeq, inject_Z; cbn; lia).
  induction H as [|x t xs ts E H IH]; intros q b.
  - exists q. split; [reflexivity|]. cbn [sumZ]. field. exact NZ.
  - destruct (IH (q + inject_Z t / inject_Z T)%Q false) as (q' & E' & Q'). exists q'. cbn [foldM]. rewrite E. cbn [bind fst add_num]. rewrite E'. split; [destruct xs; reflexivity|].
    rewrite Q'. cbn [sumZ]. rewrite inject_Z_plus. field. exact NZ.
Qed.

Lemma submetered_unit a msp mains m window last c (xs : list submeter) :
  0 <= msp -> increasing mains -> rows_within window mains m -> (2 <= length m)%nat -> last_time m last -> ends_there msp mains last -> (1 <= c)%nat ->
  Forall (fun x => 0 <= fst (snd x) /\ not_negative (snd (snd x)) /\ map fst (snd (snd x)) = map fst mains) xs ->
  at_most (fold_right plus (nothing mains) (map (fun x => snd (snd x)) xs)) mains ->
  exists r, stored_submetered (map meter_of xs) (power_meter a msp mains) window c = Ok r /\ (r = NaN \/ exists q, r = Fin q /\ in_unit q).
Proof.
  intros Hm Hinc Hw L Hl He Hc HX HA. destruct (rows_split msp m) as (ms & Hrr); [intros ->; cbn in L; lia|].
  destruct (parts_exist msp mains m window ms Hw Hrr (map snd xs)) as (ts & HP).
  { apply Forall_map. eapply Forall_impl; [|exact HX]. cbv beta. tauto. }
  destruct (sums_total msp mains m window ms Hinc Hw Hrr (map snd xs) ts HP) as (w & mw & W1 & W2 & -> & W3 & W4).
  { apply Forall_map. eapply Forall_impl; [|exact HX]. cbv beta. tauto. }
  assert (HM : Forall2 (fun x t => stored_proportion x (power_meter a msp mains) window c = (if total msp ms =? 0 then Ok NaN else Ok (Fin (inject_Z t / inject_Z (total msp ms))))) (map meter_of xs) ts).
  { clear -Hm Hinc Hw L Hl He Hc Hrr HP. revert ts HP. induction xs as [|[b [msp' own]] xs IH]; intros ts HP; inversion HP as [|? t ? ts' (m' & ms' & Et & Hw' & Ec & Hs & ->) HP']; subst; [constructor|].
    cbn [map]. constructor; [|apply IH; exact HP']. unfold meter_of. cbn [fst snd].
    exact (proportion_value a b msp msp' mains own (concat ms') (concat ms') window ms ms' last c Hm Hinc Et Hw Hw' L Hrr eq_refl Hs Hl He Hc) || 
    exact (proportion_value a b msp msp' mains own m (concat ms') window ms ms' last c Hm Hinc Et Hw Hw' L Hrr eq_refl Hs Hl He Hc). }
  unfold stored_submetered. destruct (Z.eqb_spec (total msp ms) 0) as [E0|E0].
  - assert (F0 : foldM (fun acc m => do p <- stored_proportion m (power_meter a msp mains) window c; match p with NaN => Ok acc | _ => Ok (add_num (fst acc) p, false) end) (map meter_of xs) (Fin 0, true) = Ok (Fin 0, true)).
    { clear -HM. revert ts HM. generalize (map meter_of xs) as ys. induction ys as [|y ys IH]; intros ts HM; [reflexivity|]. inversion HM as [|? t ? ts' E HM']; subst. cbn [foldM]. rewrite E. cbn [bind]. exact (IH ts' HM'). }
    rewrite F0. exists NaN. split; [reflexivity|left; reflexivity].
  - destruct (submetered_fold (power_meter a msp mains) window c (total msp ms) (map meter_of xs) ts HM E0 0%Q true) as (q & E & Q). rewrite E. cbn [bind fst snd].
    destruct (map meter_of xs) as [|y ys]; [exists NaN; split; [reflexivity|left; reflexivity]|]. exists (Fin q). split; [reflexivity|]. right. exists q. split; [reflexivity|].
    assert (HT : sumZ ts <= total msp ms).
    { eapply Z.le_trans; [apply W3|]. rewrite (total_dot msp ms (runs_ne _ _ _ Hrr)), (proj1 Hrr). apply dot_le.
      - apply ws_le; [exact Hm|exact (runs_times msp mains m window ms Hinc Hw Hrr)].
      - pose proof (filter_at_most window mains m Hw _ mw HA) as K. rewrite map_map in W1. apply at_most_values; [|exact (K W1)].
        apply (filter_nonneg _ _ _ W1), sums_nonneg, Forall_map. eapply Forall_impl; [|exact HX]. cbv beta. tauto. }
    pose proof (unit_ratio (sumZ ts) (total msp ms) (conj (proj1 W3) HT) E0) as U. destruct U as [U1 U2]. unfold in_unit. rewrite Q. rewrite Qplus_0_l. split; assumption.
Qed.

(** ** The proportion of upstream *)
Lemma best_single a x : best_type [(a, x)] = Ok a.
Proof. destruct a; reflexivity. Qed.
Lemma best_double a x y : best_type [(a, x); (a, y)] = Ok a.
Proof. destruct a; reflexivity. Qed.

Lemma upstream_value a b msp msp' mains own m m' window ms ms' last c :
  0 <= msp -> increasing mains -> map fst own = map fst mains -> rows_within window mains m -> rows_within window own m' -> (2 <= length m)%nat ->
  row_runs msp m ms -> concat ms' = m' -> same_times ms' ms -> last_time m last -> ends_there msp mains last -> (1 <= c)%nat ->
  stored_upstream (power_meter b msp' own) (power_meter a msp mains) window c =
    match pieces ms with
    | [] => Err KeyError
    | _ => if ac_eqb a b then Ok (divide (Some (inject_Z (total msp' ms'))) (inject_Z (total msp ms))) else Ok NaN
    end.
Proof.
  intros Hm Hinc Et Hw Hw' L Hrr Ec Hs Hl He Hc. destruct (share_sections a msp mains m window ms last Hm Hinc Hw L Hrr Hl He) as (us & Eg & HE).
  unfold stored_upstream. rewrite (Eg c Hc). cbn [bind].
  rewrite (HE a msp mains m ms c eq_refl Hw (proj1 Hrr) eq_refl Hc).
  rewrite (HE b msp' own m' ms' c Et Hw' Ec Hs Hc). cbn [bind]. unfold entry_of.
  destruct (pieces ms); [reflexivity|]. destruct a, b; reflexivity.
Qed.

Lemma upstream_same a msp msp' mains own m window last c q :
  0 <= msp -> increasing mains -> map fst own = map fst mains -> rows_within window mains m -> (2 <= length m)%nat ->
  last_time m last -> ends_there msp mains last -> (1 <= c)%nat ->
  stored_proportion (power_meter a msp' own) (power_meter a msp mains) window c = Ok (Fin q) ->
  stored_upstream (power_meter a msp' own) (power_meter a msp mains) window c = Ok (Fin q).
Proof.
  intros Hm Hinc Et Hw L Hl He Hc. destruct (rows_split msp m) as (ms & Hrr); [intros ->; cbn in L; lia|].
  destruct (within_like window mains m Hw own Et) as (m' & Hw' & Em). destruct (split_like ms m') as (ms' & Ec & Hs); [rewrite (proj1 Hrr); exact Em|].
  rewrite (proportion_value a a msp msp' mains own m m' window ms ms' last c Hm Hinc Et Hw Hw' L Hrr Ec Hs Hl He Hc).
  rewrite (upstream_value a a msp msp' mains own m m' window ms ms' last c Hm Hinc Et Hw Hw' L Hrr Ec Hs Hl He Hc).
  pose proof (total_no_pieces msp ms) as H0. destruct (Z.eqb_spec (total msp ms) 0) as [E|E]; [discriminate|]. destruct (pieces ms); [destruct (E (H0 eq_refl))|].
  replace (ac_eqb a a) with true by (destruct a; reflexivity). intros H. rewrite <- H. unfold divide.
  destruct (Qeq_bool (inject_Z (total msp ms)) 0) eqn:Q; [|reflexivity]. apply Qeq_bool_iff in Q. unfold Qeq, inject_Z in Q. cbn in Q. lia.
Qed.

Lemma upstream_types a b msp msp' mains own m window ms last c :
  0 <= msp -> increasing mains -> map fst own = map fst mains -> rows_within window mains m -> (2 <= length m)%nat ->
  row_runs msp m ms -> last_time m last -> ends_there msp mains last -> (1 <= c)%nat -> a <> b -> long_runs (cut_runs (long_runs ms)) <> [] ->
  stored_upstream (power_meter b msp' own) (power_meter a msp mains) window c = Ok NaN.
Proof.
  intros Hm Hinc Et Hw L Hrr Hl He Hc Hab Hne.
  destruct (within_like window mains m Hw own Et) as (m' & Hw' & Em). destruct (split_like ms m') as (ms' & Ec & Hs); [rewrite (proj1 Hrr); exact Em|].
  rewrite (upstream_value a b msp msp' mains own m m' window ms ms' last c Hm Hinc Et Hw Hw' L Hrr Ec Hs Hl He Hc).
  unfold pieces. destruct (long_runs (cut_runs (long_runs ms))); [contradiction|]. destruct a, b; try reflexivity; contradiction.
Qed.

Lemma upstream_none a b msp msp' mains own m window ms last c :
  0 <= msp -> increasing mains -> map fst own = map fst mains -> rows_within window mains m -> (2 <= length m)%nat ->
  row_runs msp m ms -> last_time m last -> ends_there msp mains last -> (1 <= c)%nat -> long_runs (cut_runs (long_runs ms)) = [] ->
  stored_upstream (power_meter b msp' own) (power_meter a msp mains) window c = Err KeyError /\
  stored_proportion (power_meter b msp' own) (power_meter a msp mains) window c = Ok NaN.
Proof.
  intros Hm Hinc Et Hw L Hrr Hl He Hc Hne.
  destruct (within_like window mains m Hw own Et) as (m' & Hw' & Em). destruct (split_like ms m') as (ms' & Ec & Hs); [rewrite (proj1 Hrr); exact Em|].
  rewrite (upstream_value a b msp msp' mains own m m' window ms ms' last c Hm Hinc Et Hw Hw' L Hrr Ec Hs Hl He Hc).
  rewrite (proportion_value a b msp msp' mains own m m' window ms ms' last c Hm Hinc Et Hw Hw' L Hrr Ec Hs Hl He Hc).
  rewrite (total_no_pieces msp ms Hne). unfold pieces. rewrite Hne. split; reflexivity.
Qed.

Lemma submetered_given mains window c xs ps : Forall2 (gives mains window c) xs ps ->
  (Forall (fun p => p = None) ps -> stored_submetered xs mains window c = Ok NaN) /\
  (~ Forall (fun p => p = None) ps -> exists q, stored_submetered xs mains window c = Ok (Fin q) /\ (q == sum_given ps)%Q).
Proof.
  intros H. unfold stored_submetered.
  assert (G : forall q0 b, exists q, 
    foldM (fun acc m => do p <- stored_proportion m mains window c; match p with NaN => Ok acc | _ => Ok (add_num (fst acc) p, false) end) xs (Fin q0, b) =
      Ok (Fin q, b && forallb (fun p => match p with None => true | _ => false end) ps) /\ (q == q0 + sum_given ps)%Q).
  { induction H as [|x p xs ps E H IH]; intros q0 b.
    - exists q0. rewrite andb_true_r. split; [reflexivity|]. unfold sum_given. cbn. rewrite Qplus_0_r. reflexivity.
    - cbn [foldM]. unfold gives in E. rewrite E. destruct p as [q|]; cbn [bind fst add_num forallb].
      + destruct (IH (q0 + q)%Q false) as (q' & E' & Q'). exists q'. rewrite E'. rewrite andb_false_r. split; [reflexivity|]. rewrite Q'. unfold sum_given. cbn [map fold_right]. ring.
      + destruct (IH q0 b) as (q' & E' & Q'). exists q'. split; [exact E'|]. rewrite Q'. unfold sum_given. cbn [map fold_right]. ring. }
  destruct (G 0%Q true) as (q & E & Q). rewrite E. cbn [bind fst snd andb].
  destruct (forallb (fun p => match p with None => true | _ => false end) ps) eqn:F.
  - split; [reflexivity|]. intros N. exfalso. apply N. rewrite forallb_forall in F. rewrite Forall_forall. intros p Hp. specialize (F p Hp). destruct p; [discriminate|reflexivity].
  - split; [|intros _; exists q; split; [reflexivity|rewrite Q; ring]]. intros A. exfalso. apply not_true_iff_false in F. apply F. rewrite forallb_forall. rewrite Forall_forall in A. intros p Hp. rewrite (A p Hp). reflexivity.
Qed.

Lemma incomplete_mains own mains m window c : increasing (st_rows mains) -> (2 <= length (st_rows mains))%nat -> (1 <= c)%nat -> rows_within window (st_rows mains) m ->
  Forall (fun r => In None (snd r)) (st_rows mains) ->
  stored_proportion own mains window c = Ok NaN /\ stored_upstream own mains window c = Err KeyError.
Proof.
  intros Hinc Hlen Hc Hw HN. unfold stored_proportion, stored_upstream, good_of.
  rewrite (no_valid_good present_all (st_msp mains) (st_rows mains) m window c Hinc Hlen Hc Hw).
  - split; reflexivity.
  - eapply Forall_impl; [|exact HN]. cbv beta. intros r Hr. apply not_true_iff_false. intros K. unfold present_all in K. rewrite forallb_forall in K. specialize (K None Hr). discriminate.
Qed.
