From Coq Require Import QArith Sorted Permutation Reals Qreals Lra Lia.
From Verif Require Import Base TimeFrameModel StoreModel GStatsModel TopModel TopProofs ColumnsModel ResampleModel ResampleProofs MetricsSpec FillSpec FillProofs GLoadModel GLoadSpec GLoadProofs GLoadProofs2 CorrModel CorrSpec CorrProofs WiringModel WiringSpec WiringProofs WiringProofs2 HouseModel HouseSpec.
Open Scope Z_scope.

Lemma filter_seq_one j m : forall k, (k <= j < k + m)%nat -> filter (fun i => Nat.eqb i j) (seq k m) = [j].
Proof.
  induction m as [|m IH]; intros k H; [lia|]. cbn [seq filter]. destruct (Nat.eqb_spec k j) as [->|N].
  - f_equal. assert (X : forall l, (forall i, In i l -> i <> j) -> filter (fun i => Nat.eqb i j) l = []).
    { induction l as [|i l IHl]; intros A; [reflexivity|]. cbn. destruct (Nat.eqb_spec i j) as [E|_]; [exfalso; exact (A i (or_introl eq_refl) E)|]. apply IHl. intros x Hx. apply A. right. exact Hx. }
    apply X. intros i Hi. apply in_seq in Hi. lia.
  - apply IH. lia.
Qed.
Lemma filter_map_comm {A B} (f : B -> bool) (g : A -> B) l : filter f (map g l) = map g (filter (fun x => f (g x)) l).
Proof. induction l as [|x l IH]; [reflexivity|]. cbn. destruct (f (g x)); cbn; rewrite IH; reflexivity. Qed.
Lemma grid_map p n : forall s, grid s p n = map (fun i => s + Z.of_nat i * p) (seq 0 n).
Proof.
  induction n as [|n IH]; intros s; [reflexivity|]. cbn [grid seq map]. f_equal; [cbn; ring|]. rewrite IH, <- seq_shift, map_map. apply map_ext. intros i. rewrite Nat2Z.inj_succ. ring.
Qed.
Lemma last_map_seq {A} (f : nat -> A) d n : last (map f (seq 0 (S n))) d = f n.
Proof. rewrite seq_S, map_app. cbn [Nat.add map]. apply last_last. Qed.

Section Grid.
  Variables (midnight : Z -> Z) (t0 p : Z).
  Hypothesis P : 0 < p.
  Hypothesis G : exists k, t0 = midnight t0 + k * p.
  Definition at_i (i : nat) : Z := t0 + Z.of_nat i * p.
  Lemma bin_at i : bin (midnight t0) p (at_i i) = at_i i.
  Proof. apply bin_spec; [exact P|]. destruct G as [k K]. split; [exists (k + Z.of_nat i); unfold at_i; rewrite K at 1; ring|lia]. Qed.
  Lemma at_inj i j : at_i i = at_i j -> i = j.
  Proof. unfold at_i. intros H. nia. Qed.
  Lemma at_sorted (A : Type) (f : nat -> A) n : forall k, StronglySorted (fun x y => fst x < fst y) (map (fun i => (at_i i, f i)) (seq k n)).
  Proof.
    induction n as [|n IH]; intros k; cbn [seq map]; constructor; [apply IH|]. apply Forall_forall. intros x Hx. apply in_map_iff in Hx. destruct Hx as (i & <- & Hi). apply in_seq in Hi. cbn. unfold at_i. nia.
  Qed.
  Lemma ffill_all limit (l : list nat) (f : nat -> Q) : forall prev gap, ffill limit prev gap (map (fun i => (at_i i, Some (f i))) l) = map (fun i => (at_i i, Some (f i))) l.
  Proof. induction l as [|i l IH]; intros prev gap; [reflexivity|]. cbn [map ffill]. rewrite IH. reflexivity. Qed.
  (** Resampling readings on the grid changes nothing (but the form of the rationals). *)
  Definition once (v : Q) : Q := (qsum [v] / inject_Z 1)%Q.
  Lemma once_eq v : (once v == v)%Q.
  Proof. unfold once. cbn. field. Qed.
  Lemma resample_grid limit (f : nat -> Q) n :
    safe_resample midnight p limit (map (fun i => (at_i i, Some (f i))) (seq 0 (S n))) = map (fun i => (at_i i, Some (once (f i)))) (seq 0 (S n)).
  Proof.
    unfold safe_resample. rewrite keep_first_id; [|apply at_sorted|intros x _ []].
    assert (E : resample_mean midnight p (map (fun i => (at_i i, Some (f i))) (seq 0 (S n))) = map (fun i => (at_i i, Some (once (f i)))) (seq 0 (S n))).
    { assert (T0 : at_i 0 = t0) by (unfold at_i; cbn; ring).
      remember (map (fun i => (at_i i, Some (f i))) (seq 0 (S n))) as c eqn:C.
      assert (L : last (map fst c) t0 = at_i n). { rewrite C, map_map. cbn [fst]. apply (last_map_seq at_i). }
      unfold resample_mean. destruct c as [|[a v] c'] eqn:D; [discriminate|]. assert (A : a = t0). { cbn [seq map] in C. injection C as -> _ _. exact T0. }
      subst a. rewrite <- D in *. assert (BT : bin (midnight t0) p t0 = t0) by (rewrite <- T0 at 2 3; apply bin_at). rewrite L, bin_at, BT.
      replace (at_i n - t0) with (Z.of_nat n * p) by (unfold at_i; cbn; ring). rewrite Z.div_mul by lia. rewrite Nat2Z.id, grid_map, map_map. apply map_ext_in. intros i Hi. apply in_seq in Hi.
      change (t0 + Z.of_nat i * p) with (at_i i). apply f_equal.
      unfold in_bin. rewrite C, filter_map_comm. rewrite (filter_ext _ (fun j => Nat.eqb j i)).
      - rewrite (filter_seq_one i) by lia. reflexivity.
      - intros j. cbn [fst]. rewrite bin_at. destruct (Nat.eqb_spec j i) as [->|N]; [apply Z.eqb_refl|]. apply Z.eqb_neq. intros X. apply N, at_inj, X. }
    rewrite E. apply (ffill_all limit (seq 0 (S n)) (fun i => once (f i))).
  Qed.
  Lemma in_range n i : (t0 <=? at_i i) && (at_i i <? at_i n) = Nat.ltb i n.
  Proof. unfold at_i. destruct (Nat.ltb_spec i n); apply eq_true_iff_eq; rewrite andb_true_iff, Z.leb_le, Z.ltb_lt; split; intros; try discriminate; try reflexivity; try split; nia. Qed.
  Lemma rows_before {A} (f : nat -> A) n m : (n <= m)%nat -> filter (fun x => (t0 <=? fst x) && (fst x <? at_i n)) (map (fun i => (at_i i, f i)) (seq 0 m)) = map (fun i => (at_i i, f i)) (seq 0 n).
  Proof.
    intros H. rewrite filter_map_comm. f_equal. cbn [fst]. rewrite (filter_ext _ (fun i => Nat.ltb i n)) by (intros i; apply in_range).
    replace m with (n + (m - n))%nat by lia. rewrite seq_app, filter_app. cbn [Nat.add].
    assert (X : filter (fun i => Nat.ltb i n) (seq 0 n) = seq 0 n). { assert (Y : forall l, (forall i, In i l -> (i < n)%nat) -> filter (fun i => Nat.ltb i n) l = l) by (induction l as [|i l IH]; intros A0; [reflexivity|]; cbn [filter]; destruct (Nat.ltb_spec i n) as [_|N]; [f_equal; apply IH; intros j Hj; apply A0; right; exact Hj|exfalso; specialize (A0 i (or_introl eq_refl)); lia]). apply Y. intros i Hi. apply in_seq in Hi. lia. }
    assert (W : filter (fun i => Nat.ltb i n) (seq n (m - n)) = []). { assert (Y : forall l, (forall i, In i l -> (n <= i)%nat) -> filter (fun i => Nat.ltb i n) l = []) by (induction l as [|i l IH]; intros A0; [reflexivity|]; cbn [filter]; destruct (Nat.ltb_spec i n) as [N|_]; [exfalso; specialize (A0 i (or_introl eq_refl)); lia|apply IH; intros j Hj; apply A0; right; exact Hj]). apply Y. intros i Hi. apply in_seq in Hi. lia. }
    rewrite X, W. apply app_nil_r.
  Qed.
  Lemma index_grid n : section_index midnight p t0 (at_i n) = map at_i (seq 0 n).
  Proof.
    assert (T0 : at_i 0 = t0) by (unfold at_i; cbn; ring). unfold section_index. replace (bin (midnight t0) p t0) with t0 by (rewrite <- T0 at 3; rewrite bin_at; symmetry; exact T0).
    rewrite grid_map. replace (- (- (at_i n - t0) / p)) with (Z.of_nat n). { rewrite Nat2Z.id. reflexivity. }
    unfold at_i. replace (- (t0 + Z.of_nat n * p - t0)) with ((- Z.of_nat n) * p) by ring. rewrite Z.div_mul by lia. ring.
  Qed.
  (** The chunk of a meter for the section of all readings but the last. *)
  Lemma chunk_grid d (f : nat -> Q) n : (2 <= n)%nat -> md_rows d = map (fun i => (at_i i, f i)) (seq 0 (S n)) ->
    meter_chunk midnight p t0 (at_i n) (as_gmeter d) = Some (mkG (map at_i (seq 0 n)) [(power_column, map (fun i => (at_i i, Some (once (f i)))) (seq 0 n))]).
  Proof.
    intros N E. unfold meter_chunk. assert (R : rows_in t0 (at_i n) (gm_rows (as_gmeter d)) = map (fun i => (at_i i, [Some (f i)])) (seq 0 n)).
    { unfold rows_in. cbn [as_gmeter gm_rows]. rewrite E, map_map. cbn [fst snd]. apply (rows_before (fun i => [Some (f i)])). lia. }
    rewrite R. destruct n as [|[|n]]; [lia|lia|]. set (k := S n) in *. remember (map (fun i => (at_i i, [Some (f i)])) (seq 0 (S k))) as rows eqn:D.
    assert (CO : column_of 0 rows = map (fun i => (at_i i, Some (f i))) (seq 0 (S k))) by (rewrite D; unfold column_of; rewrite map_map; reflexivity).
    destruct rows as [|x [|y r]]; [discriminate D|discriminate D|]. cbv beta iota zeta.
    change (combine (seq 0 (length (gm_cols (as_gmeter d)))) (gm_cols (as_gmeter d))) with [(0%nat, power_column)]. change (gm_max_period (as_gmeter d)) with (md_max d).
    cbn [map fst snd]. rewrite CO, resample_grid, map_map. reflexivity.
  Qed.
End Grid.
