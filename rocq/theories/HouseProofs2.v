From Coq Require Import QArith Sorted Permutation Reals Qreals Lra Lia.
From Verif Require Import Base TimeFrameModel StoreModel GStatsModel TopModel TopProofs ColumnsModel ResampleModel ResampleProofs MetricsSpec FillSpec FillProofs GLoadModel GLoadSpec GLoadProofs GLoadProofs2 CorrModel CorrSpec CorrProofs WiringModel WiringSpec WiringProofs WiringProofs2 HouseModel HouseSpec HouseProofs.
From Verif Require GStatsProofs.
Open Scope Z_scope.

Lemma last_opt_snoc {A} (l : list A) x : last_opt (l ++ [x]) = Some x.
Proof. induction l as [|y l IH]; [reflexivity|]. cbn [List.app]. destruct (l ++ [x]) eqn:E; [destruct l; discriminate|]. exact IH. Qed.

Section Group.
  Variables (midnight : Z -> Z) (data : wmeter -> mdata) (power : wmeter -> nat -> Q) (t0 p : Z) (n : nat).
  Hypothesis P : 0 < p.
  Hypothesis G : exists k, t0 = midnight t0 + k * p.
  Hypothesis N : (2 <= n)%nat.
  Notation at_i := (at_i t0 p).
  Definition grid_rows (m : wmeter) : Prop := md_rows (data m) = map (fun i => (at_i i, power m i)) (seq 0 (S n)).
  Definition the_frame : tf := mkTF (Some t0) (Some (at_i n)) true false false.

  Lemma frame_meter m : grid_rows m -> hdf_get_timeframe (md_rows (data m)) tf_cleared = Ok the_frame.
  Proof.
    unfold grid_rows. intros E. set (rows := md_rows (data m)) in *. assert (T0 : at_i 0 = t0) by (unfold HouseProofs.at_i; cbn; ring).
    assert (L : last_opt rows = Some (at_i n, power m n)) by (rewrite E, seq_S, map_app; apply last_opt_snoc).
    assert (LT : t0 < at_i n) by (unfold HouseProofs.at_i; nia). destruct rows as [|x r]; [discriminate E|].
    assert (X : fst x = t0) by (cbn [seq map] in E; injection E as -> _; exact T0). unfold hdf_get_timeframe. rewrite L, X. cbn [fst].
    assert (E1 : (at_i n <=? t0) = false) by lia. assert (E2 : (t0 >=? at_i n) = false) by lia.
    unfold mk. cbn. rewrite E1. cbn. unfold intersection. cbn. rewrite E2. unfold mk_flags, mk. cbn. rewrite E1. cbn. unfold isect_incl. cbn. rewrite Z.eqb_refl. reflexivity.
  Qed.
  Lemma union_frame : tf_union the_frame the_frame = Ok the_frame.
  Proof.
    assert (LT : t0 < at_i n) by (unfold HouseProofs.at_i; nia). unfold tf_union. cbn. rewrite Z.min_id, Z.max_id. unfold mk. cbn. assert (E1 : (at_i n <=? t0) = false) by lia. rewrite E1. reflexivity.
  Qed.
  Lemma group_frame ms : ms <> [] -> Forall grid_rows ms -> group_timeframe (map data ms) = Ok (Some the_frame).
  Proof.
    intros NE F. unfold group_timeframe. rewrite GStatsProofs.get_group, map_map. destruct ms as [|m ms]; [congruence|]. inversion_clear F as [|? ? A F'].
    cbn [map GStatsProofs.loop timeframe_step get_timeframe]. rewrite (frame_meter m A). cbn [bind]. clear NE. induction F' as [|m' ms A' F' IH]; [reflexivity|].
    cbn [map GStatsProofs.loop timeframe_step get_timeframe]. rewrite (frame_meter m' A'). cbn [bind]. change (tf_empty the_frame) with false. cbv iota. rewrite union_frame. cbn [bind]. exact IH.
  Qed.

  Definition grid_chunk (m : wmeter) : gchunk := mkG (map at_i (seq 0 n)) [(power_column, map (fun i => (at_i i, Some (once (power m i)))) (seq 0 n))].
  Lemma chunk_of m : grid_rows m -> meter_chunk midnight p t0 (at_i n) (as_gmeter (data m)) = Some (grid_chunk m).
  Proof. intros E. exact (chunk_grid midnight t0 p P G (data m) (power m) n N E). Qed.
  Lemma index_nodup : NoDup (map at_i (seq 0 n)).
  Proof. apply FinFun.Injective_map_NoDup; [|apply seq_NoDup]. intros i j. apply at_inj, P. Qed.
  Lemma frame_chunk m : frame (grid_chunk m).
  Proof.
    split; [repeat constructor; intros []|]. split; [exact index_nodup|]. intros x [<-|[]]. cbn [snd g_index grid_chunk]. rewrite map_map. reflexivity.
  Qed.
  Lemma at_grid (f : nat -> option Q) i : (i < n)%nat -> at_time (map (fun i => (at_i i, f i)) (seq 0 n)) (at_i i) = f i.
  Proof.
    intros I. unfold at_time. destruct (find (fun x => fst x =? at_i i) (map (fun i => (at_i i, f i)) (seq 0 n))) as [x|] eqn:E.
    - apply find_some in E. destruct E as [A B]. apply in_map_iff in A. destruct A as (j & <- & _). cbn [fst snd] in *. apply Z.eqb_eq in B. apply (at_inj t0 p P) in B. subst. reflexivity.
    - exfalso. assert (X := find_none _ _ E (at_i i, f i) (in_map _ _ _ (proj2 (in_seq n 0 i) (conj (Nat.le_0_l i) I)))). cbn in X. lia.
  Qed.
  Lemma grid_readings ms i : (i < n)%nat -> readings (map (fun m => Some (grid_chunk m)) ms) power_column (at_i i) = map (fun m => once (power m i)) ms.
  Proof.
    intros I. unfold readings. induction ms as [|m ms IH]; [reflexivity|]. cbn [map flat_map]. rewrite IH, (readings_chunk _ _ _ (frame_chunk m)). unfold chunk_val, find_column. cbn [grid_chunk g_cols find fst snd].
    destruct (column_dec power_column power_column) as [_|X]; [|congruence]. cbn [snd]. rewrite (at_grid (fun i => Some (once (power m i))) i I). reflexivity.
  Qed.
  Lemma real_sum ms i v : (v == qsum (map (fun m => once (power m i)) ms))%Q -> Q2R v = total power ms i.
  Proof.
    intros E. rewrite (Qeq_eqR _ _ E). unfold total, rsum. clear. induction ms as [|m ms IH]; [cbn; unfold Q2R; cbn; lra|]. cbn [map qsum fold_right]. change (fold_right Qplus 0%Q (map (fun m0 => once (power m0 i)) ms)) with (qsum (map (fun m0 => once (power m0 i)) ms)). rewrite Q2R_plus, IH. rewrite (Qeq_eqR _ _ (once_eq (power m i))). reflexivity.
  Qed.
  Lemma real_cells ms : ms <> [] -> forall l cells, (forall i, In i l -> (i < n)%nat) ->
    Forall2 (fun t cell => is_sum (readings (map (fun m => Some (grid_chunk m)) ms) power_column t) cell) (map at_i l) cells ->
    to_real (combine (map at_i l) cells) = map (fun i => (at_i i, Some (total power ms i))) l.
  Proof.
    intros NE. induction l as [|i l IH]; intros cells L F; cbn [map] in *; inversion_clear F as [|? cell ? cells' A B]; [reflexivity|].
    cbn [combine to_real map]. rewrite <- (IH cells'); [|intros j Hj; apply L; right; exact Hj|exact B]. unfold to_real at 1. apply f_equal2; [|reflexivity]. cbn [fst snd].
    rewrite grid_readings in A by (apply L; left; reflexivity). destruct cell as [v|]; [|destruct ms; [congruence|discriminate A]]. cbn [option_map]. rewrite (real_sum ms i v); [reflexivity|]. apply A.
  Qed.
  Lemma group_grid ms : ms <> [] -> Forall grid_rows ms ->
    group_series midnight p (map data ms) = Ok [map (fun i => (at_i i, Some (total power ms i))) (seq 0 n)].
  Proof.
    intros NE F. unfold group_series. rewrite (group_frame ms NE F). cbn [bind the_frame tf_start tf_end tf_enabled tf_start_ tf_end_]. unfold load_section. rewrite (index_grid midnight t0 p P G).
    assert (C : map (meter_chunk midnight p t0 (at_i n)) (map as_gmeter (map data ms)) = map (fun m => Some (grid_chunk m)) ms).
    { rewrite !map_map. apply map_ext_in. intros m Hm. rewrite Forall_forall in F. apply chunk_of, F, Hm. }
    rewrite C. set (cs := map (fun m => Some (grid_chunk m)) ms). assert (FR : frames cs). { intros c Hc. apply in_map_iff in Hc. destruct Hc as (m & [= <-] & _). apply frame_chunk. }
    assert (W : combine_chunks false (map at_i (seq 0 n)) [power_column] cs = Ok (map (fun col => (col, map (final_cell cs col) (map at_i (seq 0 n)))) [power_column])).
    { apply combine_works; [exact FR|]. intros q ty (c & Hc & Hq) A. exfalso. apply in_map_iff in Hc. destruct Hc as (m & [= <-] & _). destruct Hq as [E|[]]. injection E as <- _. discriminate A. }
    assert (S1 := combine_sum _ _ _ _ _ FR W). destruct S1 as [_ S1]. rewrite W. cbn [bind map fst snd] in *.
    rewrite (real_cells ms NE (seq 0 n)); [reflexivity|intros i Hi; apply in_seq in Hi; lia|]. apply S1; [left; reflexivity|]. unfold averaged. cbn. intuition discriminate.
  Qed.
  Lemma meter_grid m : grid_rows m -> meter_series midnight p (data m) = [map (fun i => (at_i i, Some (Q2R (power m i)))) (seq 0 (S n))].
  Proof.
    intros E. unfold meter_series. remember (md_rows (data m)) as rows eqn:D.
    assert (CO : map (fun x => (fst x, Some (snd x))) rows = map (fun i => (at_i i, Some (power m i))) (seq 0 (S n))) by (rewrite D, E, map_map; reflexivity).
    assert (LE : length rows = S n) by (rewrite D, E, map_length, seq_length; reflexivity). destruct rows as [|x [|y r]]; cbn [length] in LE; [lia|lia|]. rewrite CO, (resample_grid midnight t0 p P G). unfold to_real. rewrite map_map. cbn [fst snd option_map].
    f_equal. apply map_ext. intros i. rewrite (Qeq_eqR _ _ (once_eq (power m i))). reflexivity.
  Qed.
  Lemma period_grid ms : ms <> [] -> Forall (fun m => md_period (data m) = p) ms -> group_period (map data ms) = Ok p.
  Proof.
    intros NE F. destruct ms as [|m ms]; [congruence|]. inversion_clear F as [|? ? A F']. cbn [map group_period]. rewrite A. f_equal. clear NE A. induction F' as [|x ms A F' IH]; [reflexivity|]. cbn. rewrite A, Z.max_id. exact IH.
  Qed.
End Group.
