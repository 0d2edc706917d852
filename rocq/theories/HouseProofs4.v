From Coq Require Import QArith Reals Qreals Lra Lia Psatz.
From Verif Require Import Base TimeFrameModel GStatsModel ResampleModel GLoadModel CorrModel CorrSpec CorrProofs WiringModel WiringSpec WiringProofs WiringProofs2 HouseModel HouseSpec HouseProofs HouseProofs2 HouseProofs3.
Open Scope R_scope.

Lemma leaves_id ms : meters_in (map WLeaf ms) = ms.
Proof. unfold meters_in. induction ms as [|m ms IH]; [reflexivity|]. cbn [map flat_map leaves List.app]. rewrite IH. reflexivity. Qed.
Lemma chosen_same P (f : wmeter -> bool) ms l : (forall m, f m = true <-> P m) -> chosen P ms l -> l = filter f ms.
Proof. intros F (g & G & ->). apply filter_ext. intros m. apply eq_true_iff_eq. rewrite F, G. tauto. Qed.
Lemma chosen_in P ms l m : chosen P ms l -> (In m l <-> In m ms /\ P m).
Proof. intros (f & F & ->). rewrite filter_In, F. tauto. Qed.
Lemma nodes_id l : meters_of_nodes (map WMeter l) = l.
Proof. unfold meters_of_nodes. induction l as [|m l IH]; [reflexivity|]. cbn [map flat_map List.app]. rewrite IH. reflexivity. Qed.
Lemma house_down reg ms top subs : wired_below reg (map WLeaf ms) top -> chosen (directly_below reg top) ms subs ->
  downstream_of_mains reg (map WLeaf ms) = Ok (map WMeter subs) /\ subs <> [].
Proof.
  intros W C. destruct (downstream_thm reg (map WLeaf ms) top W) as (sel & S & D). rewrite leaves_id in D. rewrite D. rewrite (chosen_same _ sel ms subs S C). split; [reflexivity|].
  destruct W as (_ & _ & (m & n & I & H & E) & _). rewrite leaves_id in I. intros X. assert (In m (filter sel ms)) by (apply filter_In; split; [exact I|]; apply S; exists n; auto). rewrite X in H0. exact H0.
Qed.
Lemma one_building_ok ms : one_building ms -> several_buildings ms = false.
Proof.
  intros B. destruct ms as [|m r]; [reflexivity|]. cbn. destruct (existsb _ r) eqn:E; [|reflexivity]. apply existsb_exists in E. destruct E as (x & I & E). rewrite (B x m (or_intror I) (or_introl eq_refl)), Nat.eqb_refl in E. discriminate.
Qed.
Lemma site_filter ms l : chosen site ms l -> filter w_site ms = l.
Proof. intros C. symmetry. apply (chosen_same site w_site ms l); [|exact C]. intros m. reflexivity. Qed.
Lemma buildings_differ ms : ~ one_building ms -> several_buildings ms = true.
Proof.
  intros B. destruct (several_buildings ms) eqn:E; [reflexivity|]. exfalso. apply B. destruct ms as [|m r]; [intros x y []|]. cbn in E.
  assert (A : forall x, In x (m :: r) -> i_building (w_id x) = i_building (w_id m)). { intros x [<-|I]; [reflexivity|]. destruct (Nat.eqb_spec (i_building (w_id x)) (i_building (w_id m))) as [X|X]; [exact X|]. exfalso. assert (Y : existsb (fun x => negb (Nat.eqb (i_building (w_id x)) (i_building (w_id m)))) r = true) by (apply existsb_exists; exists x; split; [exact I|]; apply Nat.eqb_neq in X; rewrite X; reflexivity). congruence. }
  intros x y Hx Hy. rewrite (A x Hx), (A y Hy). reflexivity.
Qed.

Section House.
  Variables (midnight : Z -> Z) (data : wmeter -> mdata) (power : wmeter -> nat -> Q) (t0 p : Z) (n : nat) (reg ms : list wmeter) (top : wnode) (mains subs : list wmeter).
  Hypothesis RG : regular midnight data power t0 p n ms.
  Hypothesis N : (2 <= n)%nat.
  Hypothesis B : one_building ms.
  Hypothesis W : wired_below reg (map WLeaf ms) top.
  Hypothesis CM : chosen site ms mains.
  Hypothesis CS : chosen (directly_below reg top) ms subs.
  Let P : (0 < p)%Z := proj1 RG.
  Let G : (exists k, t0 = midnight t0 + k * p)%Z := proj1 (proj2 RG).
  Let row l : (forall m, In m l -> In m ms) -> Forall (grid_rows data power t0 p n) l.
  Proof. intros H. apply Forall_forall. intros m Hm. apply (proj2 (proj2 (proj2 RG) m (H m Hm))). Qed.
  Let per l : (forall m, In m l -> In m ms) -> Forall (fun m => md_period (data m) = p) l.
  Proof. intros H. apply Forall_forall. intros m Hm. apply (proj1 (proj2 (proj2 RG) m (H m Hm))). Qed.
  Let sub_in : forall m, In m subs -> In m ms.
  Proof. intros m H. apply (chosen_in _ _ _ m CS) in H. apply H. Qed.
  Let main_in : forall m, In m mains -> In m ms.
  Proof. intros m H. apply (chosen_in _ _ _ m CM) in H. apply H. Qed.
  Definition series (l : list wmeter) (k : nat) : chunk := map (fun i => (at_i t0 p i, Some (total power l i))) (seq 0 k).
  Lemma sub_series : group_series midnight p (map data subs) = Ok [series subs n].
  Proof. apply group_grid; [exact P|exact G|exact N|apply (house_down reg ms top subs W CS)|apply row, sub_in]. Qed.
  Lemma house_start : mains_correlation midnight data reg ms = match mains with [] => Err AttributeError | [m] => node_correlation midnight data (WMeter m) (WGroup subs) | _ => node_correlation midnight data (WGroup mains) (WGroup subs) end.
  Proof.
    unfold mains_correlation. rewrite (proj1 (house_down reg ms top subs W CS)). cbn [bind]. unfold house_mains. rewrite (one_building_ok ms B). cbn [bind]. unfold mains_of. rewrite (site_filter ms mains CM), nodes_id. destruct mains as [|m [|m' r]]; reflexivity.
  Qed.
  Lemma both_aligned : aligned [series mains n] [series subs n] (pairs power mains subs n).
  Proof.
    assert (A := al_cons (map (fun i => (at_i t0 p i, (total power mains i, total power subs i))) (seq 0 n)) [] [] [] al_nil). rewrite !map_map in A. cbn [fst snd] in A. rewrite app_nil_r in A. exact A.
  Qed.
  Lemma pairs_length : length (pairs power mains subs n) = n.
  Proof. unfold pairs. rewrite map_length, seq_length. reflexivity. Qed.
  Lemma house_several : (2 <= length mains)%nat -> exists c, mains_correlation midnight data reg ms = Ok c /\
    (forall r, c = CVal r <-> pearson (pairs power mains subs n) r) /\
    (c = CNaN <-> deviation (map fst (pairs power mains subs n)) = 0 \/ deviation (map snd (pairs power mains subs n)) = 0).
  Proof.
    intros L. exists (correlation [series mains n] [series subs n]). split.
    - rewrite house_start. assert (NE : mains <> []) by (intros E; rewrite E in L; cbn in L; lia). assert (NS := proj2 (house_down reg ms top subs W CS)).
      assert (X : node_correlation midnight data (WGroup mains) (WGroup subs) = Ok (correlation [series mains n] [series subs n])).
      { unfold node_correlation. cbn [node_period node_series]. rewrite (period_grid data p mains NE (per mains main_in)), (period_grid data p subs NS (per subs sub_in)). cbn [bind]. rewrite Z.max_id.
        rewrite (group_grid midnight data power t0 p n P G N mains NE (row mains main_in)). cbn [bind concat]. rewrite app_nil_r, map_length, seq_length. replace (Nat.leb n 1) with false by (symmetry; apply Nat.leb_gt; lia). rewrite sub_series. reflexivity. }
      destruct mains as [|m [|m' r]]; [congruence|cbn in L; lia|]. exact X.
    - assert (C := corr_pearson _ _ _ both_aligned). rewrite pairs_length in C. destruct C as [C1 C2]. split; [exact (C1 N)|]. rewrite C2. split; [intros [X|X]; [lia|exact X]|auto].
  Qed.
  Lemma house_one m : mains = [m] -> mains_correlation midnight data reg ms = Ok (correlation [series [m] (S n)] [series subs n]).
  Proof.
    intros E. rewrite house_start, E. assert (NS := proj2 (house_down reg ms top subs W CS)). assert (I : In m ms) by (apply main_in; rewrite E; left; reflexivity).
    destruct (proj2 (proj2 RG) m I) as [PM RM]. unfold node_correlation. cbn [node_period node_series]. rewrite PM, (period_grid data p subs NS (per subs sub_in)). cbn [bind]. rewrite Z.max_id.
    rewrite (meter_grid midnight data power t0 p n P G N m RM). cbn [concat]. rewrite app_nil_r, map_length, seq_length. replace (Nat.leb (S n) 1) with false by (symmetry; apply Nat.leb_gt; lia). rewrite sub_series. cbn [bind]. do 3 f_equal.
    unfold series. apply map_ext. intros i. unfold total. cbn [map rsum fold_right]. rewrite Rplus_0_r. reflexivity.
  Qed.
  Lemma at_i_inj i j : at_i t0 p i = at_i t0 p j -> i = j.
  Proof. apply at_inj, P. Qed.
  Lemma house_one_pearson m r : mains = [m] -> pearson (pairs power [m] subs n) r ->
    mains_correlation midnight data reg ms = Ok (CVal (r * sqrt ((INR n - 1) * deviation (map (total power [m]) (seq 0 n)) / (INR n * deviation (map (total power [m]) (seq 0 (S n))))))).
  Proof.
    intros E H. rewrite (house_one m E). f_equal. assert (X := longer_pearson (at_i t0 p) (total power [m]) (total power subs) n at_i_inj N r H). unfold factor, common in X. rewrite map_map in X. exact X.
  Qed.
  Lemma house_smaller m r : mains = [m] -> pearson (pairs power [m] subs n) r -> exists f, 0 < f < 1 /\ mains_correlation midnight data reg ms = Ok (CVal (r * f)).
  Proof.
    intros E H. rewrite (house_one m E). exists (factor (total power [m]) (total power subs) n). split.
    - apply (factor_bound (at_i t0 p)); [exact at_i_inj|exact N|]. destruct H as [D _]. fold (common (total power [m]) (total power subs) n) in *. unfold pairs in D. fold (common (total power [m]) (total power subs) n) in D. assert (Q0 := deviation_nonneg (map fst (common (total power [m]) (total power subs) n))). destruct Q0 as [Q0|Q0]; [exact Q0|]. rewrite <- Q0 in D. lra.
    - f_equal. exact (longer_pearson (at_i t0 p) (total power [m]) (total power subs) n at_i_inj N r H).
  Qed.
End House.
Lemma self_pearson (ps : list (R * R)) : Forall (fun q => fst q = snd q) ps -> 0 < deviation (map fst ps) -> pearson ps 1.
Proof.
  intros F D. assert (M0 : forall l : list (R * R), Forall (fun q => fst q = snd q) l -> map snd l = map fst l) by (induction 1 as [|q l E _ IH]; [reflexivity|]; cbn; rewrite E, IH; reflexivity). assert (M := M0 ps F).
  unfold pearson. rewrite M. assert (C : codeviation ps = deviation (map fst ps)). { unfold codeviation, deviation. rewrite M, map_map. f_equal. apply map_ext_in. intros q Hq. rewrite Forall_forall in F. rewrite (F q Hq). reflexivity. }
  split; [apply Rmult_lt_0_compat; exact D|]. rewrite C, sqrt_square by lra. field. lra.
Qed.

(** Readings of other meters do not matter. *)
Lemma map_data data data' (l : list wmeter) : (forall m, In m l -> data m = data' m) -> map data l = map data' l :> list mdata.
Proof. intros H. apply map_ext_in, H. Qed.
Lemma node_ext midnight data data' a b : (forall m, In m (meters_of_nodes [a; b]) -> data m = data' m) -> node_correlation midnight data a b = node_correlation midnight data' a b.
Proof.
  intros H. assert (A : forall x, In x [a; b] -> node_period data x = node_period data' x /\ forall p, node_series midnight data p x = node_series midnight data' p x).
  { intros x Hx. assert (I : forall m, In m (meters_of_nodes [x]) -> data m = data' m). { intros m Hm. apply H. unfold meters_of_nodes in *. apply in_flat_map. apply in_flat_map in Hm. destruct Hm as (y & [<-|[]] & Hm). exists x. auto. }
    destruct x as [m|l]; cbn [node_period node_series].
    - rewrite (I m (or_introl eq_refl)). split; reflexivity.
    - assert (E : map data l = map data' l) by (apply map_data; intros m Hm; apply I; cbn; rewrite app_nil_r; exact Hm). rewrite E. split; reflexivity. }
  unfold node_correlation. destruct (A a (or_introl eq_refl)) as [-> SA]. destruct (A b (or_intror (or_introl eq_refl))) as [-> SB]. destruct (node_period data' a) as [pa|]; [|reflexivity]. cbn [bind]. destruct (node_period data' b) as [pb|]; [|reflexivity]. cbn [bind]. rewrite SA, SB. reflexivity.
Qed.
Lemma house_ext midnight data data' reg ms top : wired_below reg (map WLeaf ms) top ->
  (forall m, In m ms -> site m \/ directly_below reg top m -> data m = data' m) -> mains_correlation midnight data reg ms = mains_correlation midnight data' reg ms.
Proof.
  intros W H. unfold mains_correlation. destruct (downstream_thm reg (map WLeaf ms) top W) as (sel & S1 & D). rewrite leaves_id in D. rewrite D. cbn [bind]. rewrite nodes_id. unfold house_mains. destruct (several_buildings ms); [reflexivity|]. cbn [bind].
  destruct (mains_of ms) as [a|] eqn:E; [|reflexivity]. apply node_ext. intros m Hm. unfold meters_of_nodes in Hm. cbn [flat_map] in Hm. rewrite app_nil_r in Hm. apply in_app_or in Hm. destruct Hm as [Hm|Hm].
  - assert (X : In m (filter w_site ms)). { unfold mains_of in E. destruct (filter w_site ms) as [|x [|y r]]; [discriminate| |]; injection E as <-; exact Hm. } apply filter_In in X. apply H; [apply X|left; apply X].
  - apply filter_In in Hm. apply H; [apply Hm|right; apply S1, Hm].
Qed.
Lemma house_no_mains midnight data reg ms top : wired_below reg (map WLeaf ms) top -> one_building ms -> (forall m, In m ms -> ~ site m) -> mains_correlation midnight data reg ms = Err AttributeError.
Proof.
  intros W B H. unfold mains_correlation. destruct (downstream_thm reg (map WLeaf ms) top W) as (sel & _ & D). rewrite D. cbn [bind]. unfold house_mains. rewrite (one_building_ok ms B). cbn [bind]. unfold mains_of.
  destruct (filter w_site ms) as [|x r] eqn:E; [reflexivity|]. exfalso. assert (I : In x (filter w_site ms)) by (rewrite E; left; reflexivity). apply filter_In in I. exact (H x (proj1 I) (proj2 I)).
Qed.
Lemma house_buildings midnight data reg ms top : wired_below reg (map WLeaf ms) top -> ~ one_building ms -> mains_correlation midnight data reg ms = Err RuntimeError.
Proof.
  intros W B. unfold mains_correlation. destruct (downstream_thm reg (map WLeaf ms) top W) as (sel & _ & D). rewrite D. cbn [bind]. unfold house_mains. rewrite (buildings_differ ms B). reflexivity.
Qed.
(** A group of one meter has one sample less than the meter. *)
Lemma group_of_one midnight data power t0 p n m : regular midnight data power t0 p n [m] -> (2 <= n)%nat ->
  exists c x, meter_series midnight p (data m) = [c ++ [x]] /\ length c = n /\ group_series midnight p [data m] = Ok [c].
Proof.
  intros (P & G & H) N. destruct (H m (or_introl eq_refl)) as [_ RM]. exists (map (fun i => (at_i t0 p i, Some (Q2R (power m i)))) (seq 0 n)), (at_i t0 p n, Some (Q2R (power m n))). split; [|split].
  - rewrite (meter_grid midnight data power t0 p n P G N m RM), seq_S, map_app. reflexivity.
  - rewrite map_length, seq_length. reflexivity.
  - change [data m] with (map data [m]). rewrite (group_grid midnight data power t0 p n P G N [m]); [|discriminate|repeat constructor; exact RM]. do 2 f_equal. apply map_ext. intros i. unfold total. cbn [map rsum fold_right]. rewrite Rplus_0_r. reflexivity.
Qed.
Lemma perfect midnight data power t0 p n reg ms top m subs : regular midnight data power t0 p n ms -> (2 <= n)%nat -> one_building ms -> wired_below reg (map WLeaf ms) top ->
  chosen site ms [m] -> chosen (directly_below reg top) ms subs -> (forall i, (i <= n)%nat -> Q2R (power m i) = total power subs i) -> 0 < deviation (map (total power subs) (seq 0 n)) ->
  exists r, mains_correlation midnight data reg ms = Ok (CVal r) /\ 0 < r < 1.
Proof.
  intros RG N B W CM CS E D. assert (PE : pearson (pairs power [m] subs n) 1).
  { assert (X : forall i, (i < n)%nat -> total power [m] i = total power subs i) by (intros i Hi; rewrite <- E by lia; unfold total; cbn [map rsum fold_right]; ring). apply self_pearson.
    - apply Forall_forall. intros q Hq. apply in_map_iff in Hq. destruct Hq as (i & <- & Hi). apply in_seq in Hi. cbn [fst snd]. apply X. lia.
    - unfold pairs. rewrite map_map. cbn [fst]. rewrite (map_ext_in _ (total power subs)); [exact D|]. intros i Hi. apply in_seq in Hi. apply X. lia. }
  destruct (house_smaller midnight data power t0 p n reg ms top [m] subs RG N B W CM CS m 1 eq_refl PE) as (f & F & H). exists (1 * f). split; [exact H|lra].
Qed.
