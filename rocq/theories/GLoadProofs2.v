From Coq Require Import QArith Permutation Sorted Lia.
From Verif Require Import Base TopModel TopProofs ColumnsModel ResampleModel ResampleProofs MetricsSpec FillSpec FillProofs GLoadModel GLoadSpec GLoadProofs.
Open Scope Z_scope.

(** The order of the meters. *)
Lemma qsum_perm l l' : Permutation l l' -> (qsum l == qsum l')%Q.
Proof. induction 1 as [|x l l' _ IH|x y l|l l' l'' _ IH1 _ IH2]; cbn; [reflexivity|rewrite IH; reflexivity|ring|rewrite IH1; exact IH2]. Qed.
Lemma flat_map_perm {A B} (f : A -> list B) l l' : Permutation l l' -> Permutation (flat_map f l) (flat_map f l').
Proof. induction 1 as [|x l l' _ IH|x y l|l l' l'' _ IH1 _ IH2]; cbn; [constructor|apply Permutation_app_head, IH|rewrite !app_assoc; apply Permutation_app_tail, Permutation_app_comm|etransitivity; eassumption]. Qed.
Lemma filter_perm {A} (f : A -> bool) l l' : Permutation l l' -> Permutation (filter f l) (filter f l').
Proof. induction 1 as [|x l l' _ IH|x y l|l l' l'' _ IH1 _ IH2]; cbn; [constructor|destruct (f x); [constructor|]; exact IH|destruct (f x), (f y); try constructor; reflexivity|etransitivity; eassumption]. Qed.
Lemma existsb_perm {A} (f : A -> bool) l l' : Permutation l l' -> existsb f l = existsb f l'.
Proof. induction 1 as [|x l l' _ IH|x y l|l l' l'' _ IH1 _ IH2]; cbn; [reflexivity|rewrite IH; reflexivity|destruct (f x), (f y); reflexivity|congruence]. Qed.
Lemma sum_cells l l' a b : Permutation l l' -> is_sum l a -> is_sum l' b -> same_cell a b.
Proof.
  intros P. destruct a as [x|], b as [y|]; cbn; [|intros [N _] ->; apply Permutation_sym, Permutation_nil in P; contradiction|intros -> [N _]; apply Permutation_nil in P; contradiction|trivial].
  intros [_ ->] [_ ->]. apply qsum_perm, P.
Qed.
Lemma frames_perm cs cs' : Permutation cs cs' -> frames cs -> frames cs'.
Proof. intros P F c Hc. apply F. eapply Permutation_in; [symmetry; exact P|exact Hc]. Qed.
Lemma final_perm cs cs' col t : Permutation cs cs' -> frames cs -> same_cell (final_cell cs col t) (final_cell cs' col t).
Proof.
  intros P F. assert (F' := frames_perm cs cs' P F). assert (PU : Permutation (usable cs) (usable cs')) by (apply flat_map_perm, P).
  assert (C : same_cell (cell_of cs col t) (cell_of cs' col t)) by (apply (sum_cells (readings cs col t) (readings cs' col t)); [apply flat_map_perm, P|apply cell_sum, F|apply cell_sum, F']).
  assert (N : counter (usable cs) (fst col) t = counter (usable cs') (fst col) t) by (apply Permutation_length, filter_perm, PU).
  assert (Q : filter (fun q => existsb (has_quantity q) (usable cs)) averaged_pqs = filter (fun q => existsb (has_quantity q) (usable cs')) averaged_pqs) by (apply filter_ext; intros q; apply existsb_perm, PU).
  unfold final_cell. rewrite <- Q, <- N. destruct (in_dec _ _ _); [|exact C]. destruct (counter _ _ _) as [|n]; [exact I|]. destruct (cell_of cs col t), (cell_of cs' col t); cbn in *; try contradiction; [|exact I]. rewrite C. reflexivity.
Qed.
Lemma all_or (set_ok : bool) (l : list gchunk) : {set_ok = true \/ forall c, In c l -> averages c = false} + {set_ok = false /\ exists c, In c l /\ averages c = true}.
Proof.
  destruct set_ok; [left; left; reflexivity|]. destruct (existsb averages l) eqn:E; [right; split; [reflexivity|]; apply existsb_exists in E; exact E|left; right]. intros c Hc. destruct (averages c) eqn:A; [|reflexivity]. assert (X : existsb averages l = true) by (apply existsb_exists; eauto). congruence.
Defined.
Lemma combine_perm set_ok index columns cs cs' : Permutation cs cs' -> frames cs ->
  match combine_chunks set_ok index columns cs, combine_chunks set_ok index columns cs' with
  | Ok out, Ok out' => same_frame out out'
  | Err e, Err e' => e = e'
  | _, _ => False
  end.
Proof.
  intros P F. assert (F' := frames_perm cs cs' P F). assert (PU : Permutation (usable cs) (usable cs')) by (apply flat_map_perm, P).
  destruct (all_or set_ok (usable cs)) as [A|[E (c & Hc & A)]].
  - assert (A' : set_ok = true \/ forall c, In c (usable cs') -> averages c = false) by (destruct A as [A|A]; [left; exact A|right; intros c Hc; apply A; eapply Permutation_in; [symmetry; exact PU|exact Hc]]).
    rewrite (combine_form set_ok index columns cs F A), (combine_form set_ok index columns cs' F' A'), !divide_form.
    assert (Q : filter (fun q => existsb (has_quantity q) (usable cs)) averaged_pqs = filter (fun q => existsb (has_quantity q) (usable cs')) averaged_pqs) by (apply filter_ext; intros q; apply existsb_perm, PU).
    rewrite <- Q. destruct (forallb _ _); [|reflexivity]. unfold same_frame. induction columns as [|col l IH]; cbn; constructor; [|exact IH]. cbn. split; [reflexivity|]. clear IH. induction index as [|t l' IH]; cbn; constructor; [apply final_perm; assumption|exact IH].
  - subst set_ok. unfold combine_chunks. destruct (foldM _ cs _) as [x|e] eqn:E1; [destruct (fold_ok _ _ _ F _ _ E1) as [X|X]; [discriminate|rewrite (X c Hc) in A; discriminate]|]. destruct (foldM _ cs' _) as [x|e'] eqn:E2; [destruct (fold_ok _ _ _ F' _ _ E2) as [X|X]; [discriminate|rewrite (X c) in A; [discriminate|eapply Permutation_in; [exact PU|exact Hc]]]|]. cbn. rewrite (fold_err _ _ _ _ _ E1), (fold_err _ _ _ _ _ E2). reflexivity.
Qed.

(** Meters. *)
Definition res_times (midnight : Z -> Z) (p : Z) (l : list Z) : list Z :=
  match l with [] => [] | t0 :: _ => grid (bin (midnight t0) p t0) p (S (Z.to_nat ((bin (midnight t0) p (last l t0) - bin (midnight t0) p t0) / p))) end.
Lemma res_times_eq midnight p limit c : increasing c -> map fst (safe_resample midnight p limit c) = res_times midnight p (map fst c).
Proof.
  intros S. unfold safe_resample. rewrite ffill_times, (keep_first_id c S []) by (intros x _ []). destruct c as [|[t0 v] c]; [reflexivity|]. unfold resample_mean, res_times. rewrite map_map. cbn [fst map]. apply map_id.
Qed.
Lemma column_of_times i rows : map fst (column_of i rows) = map fst rows.
Proof. unfold column_of. rewrite map_map. reflexivity. Qed.
Definition rows_increasing (rows : list (Z * list (option Q))) : Prop := StronglySorted (fun x y => fst x < fst y) rows.
Lemma rows_inc rows : increasing (map (fun x => (fst x, None)) rows) <-> rows_increasing rows.
Proof.
  unfold increasing, rows_increasing. induction rows as [|x rows IH]; cbn; [split; constructor|]. split; intros H; inversion_clear H as [|? ? S F]; constructor; try (apply IH, S); rewrite Forall_forall in *; intros y Hy.
  - apply (F (fst y, None)). change (fst y, @None Q) with ((fun x : Z * list (option Q) => (fst x, @None Q)) y). apply in_map, Hy.
  - apply in_map_iff in Hy. destruct Hy as (z & <- & Hz). cbn. apply F, Hz.
Qed.
Lemma rows_filter f rows : rows_increasing rows -> rows_increasing (filter f rows).
Proof.
  unfold rows_increasing. induction 1 as [|x rows S IH F]; cbn; [constructor|]. destruct (f x); [|exact IH]. constructor; [exact IH|]. rewrite Forall_forall in *. intros y Hy. apply filter_In in Hy. apply F, Hy.
Qed.
Lemma column_inc i rows : rows_increasing rows -> increasing (column_of i rows).
Proof. unfold rows_increasing, increasing, column_of. induction 1 as [|x rows S IH F]; cbn; [constructor|]. constructor; [exact IH|]. rewrite Forall_forall in *. intros y Hy. apply in_map_iff in Hy. destruct Hy as (z & <- & Hz). cbn. apply F, Hz. Qed.
Lemma inc_nodup (c : samples) : increasing c -> NoDup (map fst c).
Proof. unfold increasing. induction 1 as [|x c S IH F]; cbn; constructor; [|exact IH]. intros I. apply in_map_iff in I. destruct I as (y & E & Hy). rewrite Forall_forall in F. assert (X := F y Hy). lia. Qed.
Lemma combine_seq_in {A} (l : list A) : forall k i x, In (i, x) (combine (seq k (length l)) l) <-> (k <= i)%nat /\ nth_error l (i - k) = Some x.
Proof.
  induction l as [|y l IH]; intros k i x; cbn [length seq combine In].
  - split; [intros []|]. intros [_ H]. destruct (i - k)%nat; discriminate.
  - rewrite IH. split.
    + intros [E|[L H]]; [injection E as <- <-; split; [lia|]; replace (k - k)%nat with 0%nat by lia; reflexivity|]. split; [lia|]. replace (i - k)%nat with (S (i - S k)) by lia. exact H.
    + intros [L H]. destruct (Nat.eq_dec i k) as [->|N]; [left; replace (k - k)%nat with 0%nat in H by lia; injection H as <-; reflexivity|right]. split; [lia|]. replace (i - k)%nat with (S (i - S k)) in H by lia. exact H.
Qed.
Lemma map_snd_combine {A} (l : list A) : forall k, map snd (combine (seq k (length l)) l) = l.
Proof. induction l as [|x l IH]; intros k; [reflexivity|]. cbn. rewrite IH. reflexivity. Qed.
Lemma two_ends midnight (rows : list (Z * list (option Q))) x y r i : rows = x :: y :: r -> rows_increasing rows -> exists t1, spans midnight (column_of i rows) (midnight (fst x)) (fst x) t1 /\ fst x < t1.
Proof.
  intros -> S. destruct (exists_last (l := y :: r) ltac:(discriminate)) as (r' & z & E). exists (fst z). assert (I : In z (y :: r)) by (rewrite E; apply in_app_iff; right; left; reflexivity). split.
  - split; [exists (fst x, nth i (snd x) None), (column_of i (y :: r)); auto|]. exists (fst z, nth i (snd z) None), (column_of i (x :: r')). split; [|reflexivity]. rewrite E. change (x :: r' ++ [z]) with ((x :: r') ++ [z]). unfold column_of. rewrite map_app. reflexivity.
  - inversion_clear S as [|? ? _ F]. rewrite Forall_forall in F. apply F, I.
Qed.
Section Meter.
  Variables (midnight : Z -> Z) (p s e : Z).
  Hypothesis P : 0 < p.
  Lemma meter_frame m c : meter_ok m -> meter_chunk midnight p s e m = Some c -> frame c.
  Proof.
    intros (ND & NE & S) H. apply rows_inc in S. unfold meter_chunk in H. assert (SR := rows_filter (fun x => (s <=? fst x) && (fst x <? e)) _ S). fold (rows_in s e (gm_rows m)) in SR. destruct (rows_in s e (gm_rows m)) as [|x [|y r]] eqn:R; [injection H as <-; split; [constructor|split; [constructor|intros ? []]]|discriminate|].
    set (rows := x :: y :: r) in *. set (cols := map _ _) in H. apply some_inj in H. subst c.
    assert (T : forall z, In z cols -> map fst (snd z) = res_times midnight p (map fst rows)).
    { intros z Hz. apply in_map_iff in Hz. destruct Hz as (ic & <- & _). cbn [snd]. rewrite res_times_eq by (apply column_inc, SR). rewrite column_of_times. reflexivity. }
    assert (M : map fst cols = gm_cols m) by (unfold cols; rewrite map_map; cbn [fst]; apply map_snd_combine).
    assert (IX : match cols with z :: _ => map fst (snd z) | [] => [] end = res_times midnight p (map fst rows)) by (destruct cols as [|z l]; [cbn in M; congruence|apply T; left; reflexivity]).
    split; [cbn [g_cols]; rewrite M; exact ND|]. cbn [g_index g_cols]. rewrite IX. split; [|exact T]. rewrite <- (column_of_times 0 rows), <- (res_times_eq midnight p 0 (column_of 0 rows)) by (apply column_inc, SR). apply inc_nodup.
    destruct (two_ends midnight rows x y r 0 eq_refl SR) as (t1 & SP & _). apply (safe_resample_thm midnight p 0 (column_of 0 rows) _ _ _ P (column_inc 0 rows SR) SP).
  Qed.
  Lemma spans_fun (c : samples) o t0 t1 o' t0' t1' : spans midnight c o t0 t1 -> spans midnight c o' t0' t1' -> o = o' /\ t0 = t0' /\ t1 = t1'.
  Proof.
    intros [(x & r & -> & <- & <-) (y & r' & E & <-)] [(x' & q & E' & <- & <-) (y' & q' & E'' & <-)]. injection E' as <- <-. rewrite E in E''. apply app_inj_tail in E''. destruct E'' as [_ <-]. auto.
  Qed.
  Lemma meter_value m col t : meter_ok m ->
    match (match meter_chunk midnight p s e m with Some c => chunk_val c col t | None => None end) with
    | Some v => contributes midnight p s e m col t v
    | None => forall v, ~ contributes midnight p s e m col t v
    end.
  Proof.
    intros OK. assert (FR := meter_frame m). destruct OK as (ND & NE & S). assert (S' := S). apply rows_inc in S. assert (SR := rows_filter (fun x => (s <=? fst x) && (fst x <? e)) _ S). unfold meter_chunk in *. change (filter (fun x => (s <=? fst x) && (fst x <? e)) (gm_rows m)) with (rows_in s e (gm_rows m)) in SR. unfold contributes. change (filter (fun x => (s <=? fst x) && (fst x <? e)) (gm_rows m)) with (rows_in s e (gm_rows m)).
    destruct (rows_in s e (gm_rows m)) as [|x [|y r]] eqn:R.
    - intros v (i & o & t0 & t1 & _ & [(x & q & E & _) _] & _). discriminate.
    - intros v (i & o & t0 & t1 & _ & [(a & q & E & <- & _) (b & q' & E' & <-)] & L & _). injection E as <- <-. destruct q' as [|? [|? ?]]; [injection E' as <-; lia|discriminate|discriminate].
    - set (rows := x :: y :: r) in *. set (cols := map _ _) in *. assert (F := FR _ (conj ND (conj NE S')) eq_refl). clear FR.
      assert (RES : forall i, exists t1, spans midnight (column_of i rows) (midnight (fst x)) (fst x) t1 /\ fst x < t1) by (intros i; apply (two_ends midnight rows x y r i eq_refl SR)).
      assert (IN : forall c' s', In (c', s') cols <-> exists i, nth_error (gm_cols m) i = Some c' /\ s' = safe_resample midnight p (ffill_limit (gm_max_period m) p) (column_of i rows)).
      { intros c' s'. unfold cols. rewrite in_map_iff. split.
        - intros ([i c] & E & I). cbn [fst snd] in E. apply pair_equal_spec in E. destruct E as [<- <-]. apply combine_seq_in in I. destruct I as [_ I]. replace (i - 0)%nat with i in I by lia. eauto.
        - intros (i & I & ->). exists (i, c'). split; [reflexivity|]. apply combine_seq_in. split; [lia|]. replace (i - 0)%nat with i by lia. exact I. }
      destruct F as (NC & _ & _). cbn [g_cols] in NC. unfold chunk_val. cbn [g_cols]. destruct (find_column col cols) as [sm|] eqn:FC.
      + apply find_column_some in FC. apply IN in FC. destruct FC as (i & I & ->). destruct (RES i) as (t1 & SP & L). destruct (safe_resample_thm midnight p (ffill_limit (gm_max_period m) p) (column_of i rows) _ _ _ P (column_inc i rows SR) SP) as (INC & T & V & W). destruct (at_time _ t) as [v|] eqn:A.
        * apply at_time_in in A. exists i, (midnight (fst x)), (fst x), t1. split; [exact I|]. split; [exact SP|]. split; [exact L|]. split; [|apply V, A]. apply T. exact (in_map fst _ _ A).
        * intros v (j & o & t0 & t1' & J & SP' & _ & B & FL). assert (j = i) as -> by (apply (proj1 (NoDup_nth_error (gm_cols m)) ND); [apply nth_error_Some; congruence|congruence]). destruct (spans_fun _ _ _ _ _ _ _ SP SP') as (<- & <- & <-). destruct (W t v B FL) as (v' & H & _). assert (NT := inc_nodup _ INC). assert (X := at_time_some _ t (in_map fst _ _ H)). destruct X as (z & Hz & EZ & AZ). rewrite A in AZ. destruct z as [tz vz]. cbn in EZ, AZ. subst tz vz. assert (Y : Some v' = None); [|discriminate].
          revert NT H Hz. clear. generalize (safe_resample midnight p (ffill_limit (gm_max_period m) p) (column_of i rows)). intros l ND H1 H2. induction l as [|[a b] l IH]; [destruct H1|]. cbn in ND. inversion_clear ND as [|? ? N ND']. destruct H1 as [E1|H1], H2 as [E2|H2].
          -- congruence.
          -- injection E1 as -> ->. exfalso. apply N. exact (in_map fst _ _ H2).
          -- injection E2 as -> ->. exfalso. apply N. exact (in_map fst _ _ H1).
          -- apply IH; assumption.
      + apply find_column_none in FC. intros v (i & o & t0 & t1 & I & _). apply FC. assert (X : In (col, safe_resample midnight p (ffill_limit (gm_max_period m) p) (column_of i rows)) cols) by (apply IN; eauto). exact (in_map fst _ _ X).
  Qed.
  Lemma meters_frames ms : (forall m, In m ms -> meter_ok m) -> frames (map (meter_chunk midnight p s e) ms).
  Proof. intros H c Hc. apply in_map_iff in Hc. destruct Hc as (m & E & Hm). apply (meter_frame m c (H m Hm) E). Qed.
  Lemma meter_readings ms col t : (forall m, In m ms -> meter_ok m) -> exists vs, Forall2 (fun m ov => contribution midnight p s e m col t ov) ms vs /\ readings (map (meter_chunk midnight p s e) ms) col t = valid_of vs.
  Proof.
    induction ms as [|m ms IH]; intros H; [exists []; split; [constructor|reflexivity]|]. destruct IH as (vs & F & E); [intros x Hx; apply H; right; exact Hx|]. assert (V := meter_value m col t (H m (or_introl eq_refl))). eexists. split; [constructor; [exact V|exact F]|]. rewrite valid_cons, <- E. cbn [map readings flat_map]. f_equal.
    destruct (meter_chunk midnight p s e m) as [c|] eqn:M; [|reflexivity]. apply readings_chunk. apply (meter_frame m c (H m (or_introl eq_refl)) M).
  Qed.
  Lemma index_in t : In t (section_index midnight p s e) <-> (exists k, t = midnight s + k * p) /\ s - p < t /\ t < e.
  Proof.
    unfold section_index. set (b := bin (midnight s) p s). assert (B := proj1 (bin_spec (midnight s) p s b P) eq_refl). destruct B as [(k & B) R]. set (n := Z.to_nat (- (- (e - b) / p))).
    assert (D := Z.div_mod (- (e - b)) p ltac:(lia)). assert (M := Z.mod_pos_bound (- (e - b)) p P).
    split.
    - intros H. apply In_nth_error in H. destruct H as (i & H). apply grid_nth in H. destruct H as [L ->]. split; [exists (k + Z.of_nat i); rewrite B; ring|]. assert (N : Z.of_nat i < - (- (e - b) / p)) by lia. nia.
    - intros ((j & E) & L1 & L2). assert (X : k <= j) by nia. apply (nth_error_In _ (Z.to_nat (j - k))). apply grid_nth. rewrite Z2Nat.id by lia. split; [|rewrite E, B; ring]. apply Nat2Z.inj_lt. rewrite Z2Nat.id by lia. unfold n. assert (Y : j - k < - (- (e - b) / p)) by nia. rewrite Z2Nat.id by lia. exact Y.
  Qed.
End Meter.
Lemma load_section_thm set_ok midnight p columns ms s e index out : 0 < p -> (forall m, In m ms -> meter_ok m) ->
  load_section set_ok midnight p columns ms s e = Ok (index, out) ->
  (forall t, In t index <-> (exists k, t = midnight s + k * p) /\ s - p < t /\ t < e) /\ map fst out = columns /\
  forall col cells, In (col, cells) out -> ~ averaged (fst col) -> Forall2 (fun t cell => exists vs, Forall2 (fun m ov => contribution midnight p s e m col t ov) ms vs /\ is_sum (valid_of vs) cell) index cells.
Proof.
  intros P OK H. unfold load_section in H. destruct (combine_chunks _ _ _ _) as [o|] eqn:E; [|discriminate]. cbn [bind] in H. injection H as <- ->. split; [intros t; apply index_in, P|]. destruct (combine_sum _ _ _ _ _ (meters_frames midnight p s e P ms OK) E) as [M S]. split; [exact M|]. intros col cells I NA. assert (F := S col cells I NA). clear - F OK P. induction F as [|t cell l l' H F IH]; constructor; [|exact IH]. destruct (meter_readings midnight p s e P ms col t OK) as (vs & A & B). exists vs. split; [exact A|]. rewrite <- B. exact H.
Qed.
Lemma on_index midnight p s e m col t v : 0 < p -> meter_ok m -> (forall t1 t2, exists k, midnight t1 = midnight t2 + k * p) ->
  contributes midnight p s e m col t v -> In t (section_index midnight p s e).
Proof.
  intros P (_ & _ & S) G (i & o & t0 & t1 & _ & [(x & r & E & EX & <-) (y & r' & E' & EY)] & _ & ((k & ->) & B1 & B2) & _). apply index_in; [exact P|].
  assert (R : forall z, In z (column_of i (filter (fun x => (s <=? fst x) && (fst x <? e)) (gm_rows m))) -> s <= fst z < e). { intros z Hz. unfold column_of in Hz. apply in_map_iff in Hz. destruct Hz as (w & <- & Hw). apply filter_In in Hw. cbn. lia. }
  assert (RX := R x ltac:(rewrite E; left; reflexivity)). assert (RY := R y ltac:(rewrite E'; apply in_app_iff; right; left; reflexivity)).
  destruct (G t0 s) as (j & J). split; [exists (j + k); rewrite J; ring|]. lia.
Qed.
Lemma sections_disjoint midnight p s1 e1 s2 e2 k : 0 < p -> e1 <= s2 -> s2 = midnight s2 + k * p -> forall t, In t (section_index midnight p s1 e1) -> ~ In t (section_index midnight p s2 e2).
Proof.
  intros P L K t H1 H2. apply index_in in H1; [|exact P]. apply index_in in H2; [|exact P]. destruct H1 as (_ & _ & A), H2 as ((j & J) & B & _). assert (k - 1 < j) by nia. nia.
Qed.
