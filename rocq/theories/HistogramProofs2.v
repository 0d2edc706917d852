(** Ranges and numbers of bins that are left open. *)
From Coq Require Import QArith Lqa Lia.
From Verif Require Import Base HistogramModel HistogramSpec HistogramProofs.
Import List. Open Scope list_scope. Open Scope nat_scope.

Lemma trunc_spec x n : (1 <= n)%Z -> (inject_Z n <= x)%Q -> (x < inject_Z (n + 1))%Q -> q_trunc x = n.
Proof.
  intros N L U. unfold q_trunc. destruct x as [a b]. unfold Qle, Qlt in *. cbn in *.
  rewrite Z.quot_div_nonneg by lia. symmetry. apply (Z.div_unique a (Zpos b) n (a - n * Zpos b)); lia.
Qed.
Lemma trunc_small x : (x < 1)%Q -> (q_trunc x < 1)%Z.
Proof.
  intros L. unfold q_trunc. destruct x as [a b]. unfold Qlt in L. cbn in *.
  destruct (Z.le_gt_cases 0 a).
  - rewrite Z.quot_small by lia. lia.
  - assert (0 <= Z.quot (- a) (Zpos b))%Z by (apply Z.quot_pos; lia). rewrite Z.quot_opp_l in * by lia. lia.
Qed.

Lemma default_bins chunks n l h : chunks <> [] -> (1 <= n)%Z -> (inject_Z n <= h - l)%Q -> (h - l < inject_Z (n + 1))%Q ->
  histogram_from_generator chunks NoBins (Some (Some l, Some h)) = histogram_from_generator chunks (NBins n) (Some (Some l, Some h)).
Proof.
  intros C N L U. destruct chunks as [|c chunks]; [easy|]. unfold histogram_from_generator.
  cbn [histogram_loop fill_range fill_bins bind fst snd]. now rewrite (trunc_spec _ n).
Qed.
Lemma too_narrow chunks l h : chunks <> [] -> (h - l < 1)%Q ->
  histogram_from_generator chunks NoBins (Some (Some l, Some h)) = Err ValueError.
Proof.
  intros C L. destruct chunks as [|c chunks]; [easy|]. unfold histogram_from_generator.
  cbn [histogram_loop fill_range fill_bins bind fst snd np_histogram].
  apply trunc_small in L. now replace (q_trunc (h - l) <? 1)%Z with true by lia.
Qed.

Lemma flat_range chunks n l h : chunks <> [] -> (0 < n)%Z -> (l == h)%Q ->
  exists out es, histogram_from_generator chunks (NBins n) (Some (Some l, Some h)) = Ok (Some out, Edges es) /\
    length es = S (Z.to_nat n) /\
    forall i, i <= Z.to_nat n -> exists e, nth_error es i = Some e /\ (e == l - (1 # 2) + inject_Z (Z.of_nat i) / inject_Z n)%Q.
Proof.
  intros C N E. destruct chunks as [|c chunks]; [easy|]. unfold histogram_from_generator. cbn [histogram_loop fill_range fill_bins bind np_histogram fst snd].
  replace (n <? 1)%Z with false by lia. replace (Qle_bool l h) with true by (symmetry; apply Qle_bool_iff; lra).
  replace (Qeq_bool l h) with true by (symmetry; now apply Qeq_bool_iff). cbn [negb bind].
  rewrite loop_edges; [|apply linspace_nondecreasing; [lia|lra]].
  eexists. eexists. split; [reflexivity|]. split; [unfold linspace; now rewrite map_length, seq_length|].
  intros i I. rewrite linspace_nth by exact I. eexists. split; [reflexivity|]. rewrite Z2Nat.id by lia. rewrite <- E.
  assert (~ inject_Z n == 0)%Q by (unfold Qeq; cbn; lia). field. exact H.
Qed.

Lemma min_found c x : In (Some x) c -> exists lo, series_min c = Some lo /\ lowest c lo.
Proof.
  revert x. induction c as [|[y|] c IH]; intros x I; [destruct I| |].
  - destruct (series_min c) as [m|] eqn:M.
    + assert (L : lowest c m).
      { clear - M IH. assert (X : exists z, In (Some z) c).
        { clear IH. revert m M. induction c as [|[z|] c IHc]; intros m M; [discriminate|exists z; now left|].
          destruct (IHc m M) as [z Z]. exists z. now right. }
        destruct X as [z Z]. destruct (IH z Z) as (lo & E & L). congruence. }
      change (series_min (Some y :: c)) with (opt_join qmin (Some y) (series_min c)). rewrite M. cbn [opt_join]. eexists. split; [reflexivity|].
      destruct L as [L1 L2]. unfold qmin. destruct (Qle_bool y m) eqn:B.
      * apply Qle_bool_iff in B. split; [now left|]. intros z [Z|Z]; [injection Z as ->; lra|]. specialize (L2 z Z). lra.
      * apply Qle_bool_false in B. split; [now right|]. intros z [Z|Z]; [injection Z as ->; lra|]. exact (L2 z Z).
    + change (series_min (Some y :: c)) with (opt_join qmin (Some y) (series_min c)). rewrite M. exists y. split; [reflexivity|].
      split; [now left|]. intros z [Z|Z]; [injection Z as ->; lra|]. destruct (IH z Z) as (lo & E & _). congruence.
  - destruct I as [I|I]; [discriminate|]. destruct (IH x I) as (lo & E & [L1 L2]). exists lo. split; [exact E|].
    split; [now right|]. intros z [Z|Z]; [discriminate|now apply L2].
Qed.
Lemma max_found c x : In (Some x) c -> exists hi, series_max c = Some hi /\ highest c hi.
Proof.
  revert x. induction c as [|[y|] c IH]; intros x I; [destruct I| |].
  - destruct (series_max c) as [m|] eqn:M.
    + assert (L : highest c m).
      { clear - M IH. assert (X : exists z, In (Some z) c).
        { clear IH. revert m M. induction c as [|[z|] c IHc]; intros m M; [discriminate|exists z; now left|].
          destruct (IHc m M) as [z Z]. exists z. now right. }
        destruct X as [z Z]. destruct (IH z Z) as (lo & E & L). congruence. }
      change (series_max (Some y :: c)) with (opt_join qmax (Some y) (series_max c)). rewrite M. cbn [opt_join]. eexists. split; [reflexivity|].
      destruct L as [L1 L2]. unfold qmax. destruct (Qle_bool y m) eqn:B.
      * apply Qle_bool_iff in B. split; [now right|]. intros z [Z|Z]; [injection Z as ->; lra|]. exact (L2 z Z).
      * apply Qle_bool_false in B. split; [now left|]. intros z [Z|Z]; [injection Z as ->; lra|]. specialize (L2 z Z). lra.
    + change (series_max (Some y :: c)) with (opt_join qmax (Some y) (series_max c)). rewrite M. exists y. split; [reflexivity|].
      split; [now left|]. intros z [Z|Z]; [injection Z as ->; lra|]. destruct (IH z Z) as (lo & E & _). congruence.
  - destruct I as [I|I]; [discriminate|]. destruct (IH x I) as (lo & E & [L1 L2]). exists lo. split; [exact E|].
    split; [now right|]. intros z [Z|Z]; [discriminate|now apply L2].
Qed.

Lemma open_range c chunks bins x : In (Some x) c ->
  exists lo hi, lowest c lo /\ highest c hi /\
    histogram_from_generator (c :: chunks) bins None = histogram_from_generator (c :: chunks) bins (Some (Some lo, Some hi)) /\
    (forall h, histogram_from_generator (c :: chunks) bins (Some (None, Some h)) = histogram_from_generator (c :: chunks) bins (Some (Some lo, Some h))) /\
    (forall l, histogram_from_generator (c :: chunks) bins (Some (Some l, None)) = histogram_from_generator (c :: chunks) bins (Some (Some l, Some hi))).
Proof.
  intros I. destruct (min_found c x I) as (lo & L & Lo). destruct (max_found c x I) as (hi & H & Hi).
  exists lo, hi. split; [exact Lo|]. split; [exact Hi|]. unfold histogram_from_generator. cbn [histogram_loop fill_range]. rewrite L, H. auto.
Qed.

Lemma open_empty c chunks bins : (forall x, ~ In (Some x) c) -> (forall es, bins <> Edges es) ->
  histogram_from_generator (c :: chunks) bins None = Err ValueError.
Proof.
  intros N B. assert (M : series_min c = None).
  { clear B. induction c as [|[x|] c IH]; [reflexivity|exfalso; apply (N x); now left|]. apply IH. intros x I. apply (N x). now right. }
  unfold histogram_from_generator. cbn [histogram_loop fill_range fst snd]. rewrite M. destruct bins as [|n|es]; [reflexivity| |now destruct (B es)].
  cbn. now destruct (series_max c).
Qed.
