From Coq Require Import QArith Lia Lqa Sorted.
From Verif Require Import Base TopModel ResampleModel MetricsModel MetricsSpec ResampleProofs.
Open Scope Z_scope.

Lemma some_inj {A} (x y : A) : Some x = Some y -> x = y.
Proof. congruence. Qed.

(** Forward filling, position by position. *)
Lemma ffill_times limit c : forall prev gap, map fst (ffill limit prev gap c) = map fst c.
Proof. induction c as [|[t [v|]] c IH]; intros prev gap; cbn; [reflexivity| |]; rewrite IH; reflexivity. Qed.
Lemma ffill_nth limit c : forall prev gap i t v, nth_error (ffill limit prev gap c) i = Some (t, Some v) <->
  (exists w, nth_error c i = Some (t, w)) /\
  ((exists j s, (j <= i)%nat /\ nth_error c j = Some (s, Some v) /\ (i - j <= limit)%nat /\ (forall k, (j < k <= i)%nat -> exists s', nth_error c k = Some (s', None))) \/
   (prev = Some v /\ (gap + i < limit)%nat /\ forall k, (k <= i)%nat -> exists s', nth_error c k = Some (s', None))).
Proof.
  induction c as [|[t0 [v0|]] c IH]; intros prev gap i t v.
  - cbn [ffill]. split; [destruct i; discriminate|]. intros [[w H] _]. destruct i; discriminate.
  - cbn [ffill]. destruct i as [|i]; cbn [nth_error].
    + split.
      * intros [= -> ->]. split; [eauto|]. left. exists 0%nat, t. split; [lia|]. split; [reflexivity|]. split; [lia|]. intros k Hk. lia.
      * intros [[w [= -> _]] [(j & s & Hj & E & _)|(_ & _ & N0)]]; [assert (j = 0)%nat by lia; subst j; cbn in E; congruence|]. destruct (N0 0%nat (le_n 0)) as [s' X]. cbn in X. discriminate.
    + rewrite IH. split; intros [[w W] [(j & s & Hj & E & L & N)|H]]; (split; [eauto|]).
      * left. exists (S j), s. split; [lia|]. split; [exact E|]. split; [lia|]. intros [|k] Hk; [lia|]. apply N. lia.
      * destruct H as (P & G & N). injection P as ->. left. exists 0%nat, t0. split; [lia|]. split; [reflexivity|]. split; [lia|]. intros [|k] Hk; [lia|]. apply N. lia.
      * destruct j as [|j].
        -- cbn in E. injection E as -> ->. right. split; [reflexivity|]. split; [lia|]. intros k Hk. apply (N (S k)). lia.
        -- left. exists j, s. split; [lia|]. split; [exact E|]. split; [lia|]. intros k Hk. apply (N (S k)). lia.
      * destruct H as (_ & _ & N). destruct (N 0%nat (Nat.le_0_l _)) as [s' X]. cbn in X. discriminate.
  - cbn [ffill]. destruct i as [|i]; cbn [nth_error].
    + split.
      * destruct (Nat.ltb_spec gap limit) as [L|L]; [|intros X; discriminate]. intros [= -> E]. split; [eauto|]. right. split; [exact E|]. split; [lia|]. intros k Hk. assert (k = 0)%nat by lia. subst k. cbn. eauto.
      * intros [[w [= -> _]] [(j & s & Hj & E & _)|(P & G & _)]]; [assert (j = 0)%nat by lia; subst j; cbn in E; congruence|]. destruct (Nat.ltb_spec gap limit); [rewrite P; reflexivity|lia].
    + rewrite IH. split; intros [[w W] [(j & s & Hj & E & L & N)|(P & G & N)]]; (split; [eauto|]).
      * left. exists (S j), s. split; [lia|]. split; [exact E|]. split; [lia|]. intros [|k] Hk; [lia|]. apply N. lia.
      * right. split; [exact P|]. split; [lia|]. intros [|k] Hk; [cbn; eauto|]. apply N. lia.
      * destruct j as [|j]; [cbn in E; discriminate|]. left. exists j, s. split; [lia|]. split; [exact E|]. split; [lia|]. intros k Hk. apply (N (S k)). lia.
      * right. split; [exact P|]. split; [lia|]. intros k Hk. apply (N (S k)). lia.
Qed.

(** The rows of a resampled series, by position. *)
Lemma grid_nth p n : forall s i b, nth_error (grid s p n) i = Some b <-> (i < n)%nat /\ b = s + Z.of_nat i * p.
Proof.
  induction n as [|n IH]; intros s i b; cbn [grid]; [split; [destruct i; discriminate|lia]|]. destruct i as [|i]; cbn [nth_error].
  - split; [intros [= <-]; lia|]. intros [_ ->]. f_equal. lia.
  - rewrite IH. split; intros [A ->]; (split; [lia|lia]).
Qed.
Definition first_bin (midnight : Z -> Z) (p : Z) (c : samples) : Z := match c with [] => 0 | x :: _ => bin (midnight (fst x)) p (fst x) end.
Definition final_bin (midnight : Z -> Z) (p : Z) (c : samples) : Z := match c with [] => 0 | x :: _ => bin (midnight (fst x)) p (last (map fst c) (fst x)) end.
Lemma resample_nth midnight p c i b v : 0 < p -> sorted_times c -> c <> [] ->
  (nth_error (resample_mean midnight p c) i = Some (b, v) <-> b = first_bin midnight p c + Z.of_nat i * p /\ b <= final_bin midnight p c /\ v = mean_of (window_values c b p)).
Proof.
  intros P S NE. destruct c as [|[t0 v0] c]; [congruence|]. set (l := (t0, v0) :: c) in *. set (o := midnight t0).
  change (first_bin midnight p l) with (bin o p t0). change (final_bin midnight p l) with (bin o p (last (map fst l) t0)).
  assert (LE : bin o p t0 <= bin o p (last (map fst l) t0)) by (apply bin_mono; [exact P|apply (last_time l t0 (t0, v0) S (or_introl eq_refl))]).
  destruct (proj1 (bin_spec o p t0 _ P) eq_refl) as [[k0 K0] _]. destruct (proj1 (bin_spec o p (last (map fst l) t0) _ P) eq_refl) as [[k1 K1] _].
  assert (EQ : resample_mean midnight p l = map (fun b => (b, mean_of (valid_of (map snd (in_bin o p b l))))) (grid (bin o p t0) p (Datatypes.S (Z.to_nat ((bin o p (last (map fst l) t0) - bin o p t0) / p))))) by reflexivity. rewrite EQ. clear EQ.
  set (f := bin o p t0) in *. set (g := bin o p (last (map fst l) t0)) in *. assert (D : (g - f) / p = k1 - k0) by (replace (g - f) with ((k1 - k0) * p) by lia; apply Z.div_mul; lia). rewrite D, nth_error_map.
  assert (KK : forall j, exists k, f + j * p = o + k * p) by (intros j; exists (k0 + j); lia). split.
  - destruct (nth_error (grid f p (Datatypes.S (Z.to_nat (k1 - k0)))) i) as [b'|] eqn:E; [|discriminate]. cbn [option_map]. intros X. assert (Y := some_inj _ _ X). apply pair_equal_spec in Y. destruct Y as [<- <-]. apply grid_nth in E. destruct E as [A ->]. split; [reflexivity|]. split; [nia|]. f_equal. apply in_bin_window; [exact P|apply KK].
  - intros (-> & B & ->). assert (E : nth_error (grid f p (Datatypes.S (Z.to_nat (k1 - k0)))) i = Some (f + Z.of_nat i * p)) by (apply grid_nth; split; [|reflexivity]; assert (Z.of_nat i <= k1 - k0) by nia; lia). rewrite E. cbn [option_map]. do 2 f_equal. f_equal. apply in_bin_window; [exact P|apply KK].
Qed.

(** keep_first *)
Lemma keep_first_in c : forall seen x, In x (keep_first seen c) -> In x c /\ ~ In (fst x) seen.
Proof.
  induction c as [|y c IH]; intros seen x H; [destruct H|]. cbn [keep_first] in H. destruct (existsb (Z.eqb (fst y)) seen) eqn:E.
  - apply IH in H. split; [right; apply H|apply H].
  - destruct H as [<-|H].
    + split; [left; reflexivity|]. intros I. assert (X : existsb (Z.eqb (fst y)) seen = true) by (apply existsb_exists; exists (fst y); split; [exact I|apply Z.eqb_refl]). congruence.
    + apply IH in H. destruct H as [A B]. split; [right; exact A|]. intros I. apply B. right. exact I.
Qed.
Lemma keep_first_sorted c : sorted_times c -> forall seen, StronglySorted (fun x y => fst x < fst y) (keep_first seen c).
Proof.
  induction 1 as [|y c S IH F]; intros seen; cbn [keep_first]; [constructor|]. destruct (existsb (Z.eqb (fst y)) seen); [apply IH|]. constructor; [apply IH|]. rewrite Forall_forall in *. intros x Hx. apply keep_first_in in Hx. destruct Hx as [A B]. assert (X := F x A). assert (fst y <> fst x) by (intros E; apply B; left; exact E). lia.
Qed.
Lemma keep_first_id c : StronglySorted (fun x y => fst x < fst y) c -> forall seen, (forall x, In x c -> ~ In (fst x) seen) -> keep_first seen c = c.
Proof.
  induction 1 as [|y c S IH F]; intros seen N; cbn [keep_first]; [reflexivity|]. destruct (existsb (Z.eqb (fst y)) seen) eqn:E.
  - exfalso. apply existsb_exists in E. destruct E as (z & Hz & E). apply Z.eqb_eq in E. subst z. apply (N y); [left; reflexivity|exact Hz].
  - f_equal. apply IH. intros x Hx [E'|I]; [|apply (N x); [right; exact Hx|exact I]]. rewrite Forall_forall in F. assert (X := F x Hx). lia.
Qed.
Lemma strict_sorted (c : samples) : StronglySorted (fun x y => fst x < fst y) c -> sorted_times c.
Proof. induction 1 as [|y c S IH F]; constructor; [exact IH|]. rewrite Forall_forall in *. intros x Hx. assert (X := F x Hx). lia. Qed.
Lemma limit_bound m p : 0 < p -> 0 <= m -> Z.of_nat (ffill_limit m p) * p < m + p.
Proof.
  intros P M. unfold ffill_limit. assert (X := Z.div_mod (- m) p ltac:(lia)). assert (Y := Z.mod_pos_bound (- m) p P). assert (0 <= - (- m / p)) by (assert (- m / p <= 0) by (apply Z.div_le_upper_bound; lia); lia). rewrite Z2Nat.id by lia. nia.
Qed.

From Verif Require Import FillSpec.
Lemma last_snoc (r : samples) y d : last (map fst (r ++ [y])) d = fst y.
Proof. rewrite map_app. cbn. apply last_last. Qed.
Lemma spans_bins midnight p c o t0 t1 : 0 < p -> spans midnight c o t0 t1 -> first_bin midnight p c = bin o p t0 /\ final_bin midnight p c = bin o p t1 /\ c <> [].
Proof.
  intros P [(x & r & E & <- & <-) (y & r' & E' & <-)]. assert (NE : c <> []) by (rewrite E; discriminate). split; [rewrite E; reflexivity|]. split; [|exact NE]. unfold final_bin. assert (L : last (map fst c) (fst x) = fst y) by (rewrite E'; apply last_snoc). rewrite E in L |- *. rewrite L. reflexivity.
Qed.
Lemma between_bins o p t0 t1 t : 0 < p -> (bin_between o p t0 t1 t <-> exists i : nat, t = bin o p t0 + Z.of_nat i * p /\ t <= bin o p t1).
Proof.
  intros P. destruct (proj1 (bin_spec o p t0 _ P) eq_refl) as [[k0 K0] R0]. destruct (proj1 (bin_spec o p t1 _ P) eq_refl) as [[k1 K1] R1]. unfold bin_between. split.
  - intros ([k ->] & A & B). rewrite K0, K1 in *. assert (k0 <= k) by nia. assert (k <= k1) by nia. exists (Z.to_nat (k - k0)). rewrite Z2Nat.id by lia. split; nia.
  - intros (i & -> & B). rewrite K0, K1 in *. split; [exists (k0 + Z.of_nat i); lia|]. split; nia.
Qed.
Lemma resample_times midnight p c o t0 t1 t : 0 < p -> sorted_times c -> spans midnight c o t0 t1 ->
  (In t (map fst (resample_mean midnight p c)) <-> bin_between o p t0 t1 t).
Proof.
  intros P S SP. destruct (spans_bins midnight p c o t0 t1 P SP) as (F & G & NE). rewrite (between_bins o p t0 t1 t P), <- F, <- G, in_map_iff. split.
  - intros ([b v] & <- & H). apply In_nth_error in H. destruct H as [i H]. apply (resample_nth midnight p c i b v P S NE) in H. destruct H as (A & B & _). exists i. auto.
  - intros (i & A & B). exists (t, mean_of (window_values c t p)). split; [reflexivity|]. apply (nth_error_In _ i). apply (resample_nth midnight p c i t _ P S NE). auto.
Qed.
Lemma grid_increasing midnight p c : 0 < p -> sorted_times c -> increasing (resample_mean midnight p c).
Proof.
  intros P S. destruct c as [|x c']; [constructor|]. set (c := x :: c') in *. assert (NE : c <> []) by discriminate. unfold increasing.
  assert (X : forall (l : samples), (forall i j x y, (i < j)%nat -> nth_error l i = Some x -> nth_error l j = Some y -> fst x < fst y) -> StronglySorted (fun x y : Z * option Q => fst x < fst y) l).
  { clear. induction l as [|a l IH]; intros H; constructor.
    - apply IH. intros i j x y L A B. apply (H (S i) (S j) x y); [lia|exact A|exact B].
    - rewrite Forall_forall. intros y Hy. apply In_nth_error in Hy. destruct Hy as [j Hj]. apply (H 0%nat (S j) a y); [lia|reflexivity|exact Hj]. }
  apply X. intros i j [b v] [b' v'] L A B. apply (resample_nth midnight p c i b v P S NE) in A. apply (resample_nth midnight p c j b' v' P S NE) in B. destruct A as [-> _], B as [-> _]. cbn. nia.
Qed.
Lemma increasing_map (c d : samples) : map fst c = map fst d -> increasing c -> increasing d.
Proof.
  unfold increasing. intros E S. revert d E. induction S as [|x c S IH F]; intros [|y d] E; try discriminate; constructor; cbn in E; injection E as E1 E2.
  - apply IH. exact E2.
  - rewrite Forall_forall in *. intros z Hz. assert (I : In (fst z) (map fst c)) by (rewrite E2; apply in_map, Hz). apply in_map_iff in I. destruct I as (w & W & Hw). assert (X := F w Hw). lia.
Qed.

Lemma window_empty_before c o p t t0 : (forall x, In x c -> t0 <= fst x) -> (exists k, t = o + k * p) -> t + p <= t0 -> window_values c t p = [].
Proof.
  intros H _ L. unfold window_values. induction c as [|x c IH]; [reflexivity|]. cbn [flat_map]. rewrite IH by (intros y Hy; apply H; right; exact Hy). assert (X := H x (or_introl eq_refl)). replace ((t <=? fst x) && (fst x <? t + p))%bool with false by lia. reflexivity.
Qed.
Lemma mean_of_window c t p : (exists v, mean_of (window_values c t p) = Some v /\ window_mean c t p v) \/ (mean_of (window_values c t p) = None /\ window_values c t p = []).
Proof.
  unfold window_mean, mean_of. destruct (window_values c t p) as [|q l]; [right; auto|left]. eexists. split; [reflexivity|]. split; [discriminate|reflexivity].
Qed.
Lemma mean_none c t p : mean_of (window_values c t p) = None -> window_values c t p = [].
Proof. unfold mean_of. destruct (window_values c t p); [reflexivity|discriminate]. Qed.

Lemma fill_value midnight p limit c o t0 t1 t : 0 < p -> sorted_times c -> spans midnight c o t0 t1 -> bin_between o p t0 t1 t ->
  (forall v, In (t, Some v) (ffill limit None 0 (resample_mean midnight p c)) -> filled c p limit t v) /\
  (forall v, filled c p limit t v -> exists v', In (t, Some v') (ffill limit None 0 (resample_mean midnight p c)) /\ (v' == v)%Q).
Proof.
  intros P S SP BT. destruct (spans_bins midnight p c o t0 t1 P SP) as (F & G & NE). assert (RN := fun i b v => resample_nth midnight p c i b v P S NE). rewrite F, G in RN. apply (between_bins o p t0 t1 t P) in BT. destruct BT as (i0 & T0 & T1).
  assert (MIN : forall x, In x c -> t0 <= fst x). { destruct SP as [(x & r & -> & <- & _) _]. intros y [<-|Hy]; [lia|]. inversion_clear S as [|a b S' FF]. rewrite Forall_forall in FF. exact (FF y Hy). }
  destruct (proj1 (bin_spec o p t0 _ P) eq_refl) as [[k0 K0] R0]. set (f := bin o p t0) in *. split.
  - intros v H. apply In_nth_error in H. destruct H as [i H]. apply ffill_nth in H. destruct H as [[w W] [(j & s & J & E & L & N)|(X & _)]]; [|discriminate]. apply RN in W, E. destruct W as (W & WF & _), E as (E & EF & EV). exists (i - j)%nat. split; [exact L|].
    assert (ST : s = t - Z.of_nat (i - j) * p) by nia. rewrite <- ST. split.
    + symmetry in EV. apply mean_of_some in EV. exact EV.
    + intros k K. destruct (N (i - k)%nat ltac:(lia)) as [s' Q']. apply RN in Q'. destruct Q' as (Q1 & _ & Q2). symmetry in Q2. apply mean_none in Q2. replace (t - Z.of_nat k * p) with s' by nia. exact Q2.
  - intros v (j & J & [M1 M2] & N).
    assert (JI : (j <= i0)%nat). { destruct (Nat.le_gt_cases j i0) as [L|L]; [exact L|]. exfalso. apply M1. apply (window_empty_before c o p _ t0 MIN); [exists (k0 + Z.of_nat i0 - Z.of_nat j); lia|]. nia. }
    destruct (mean_of_window c (t - Z.of_nat j * p) p) as [(v' & E & [_ M'])|[_ E]]; [|contradiction]. exists v'. split; [|rewrite M', M2; reflexivity].
    apply (nth_error_In _ i0). apply ffill_nth. split; [exists (mean_of (window_values c t p)); apply RN; auto|]. left. exists (i0 - j)%nat, (t - Z.of_nat j * p). split; [lia|]. split; [apply RN; repeat split; [nia|nia|symmetry; exact E]|]. split; [lia|].
    intros k K. exists (f + Z.of_nat k * p). apply RN. split; [reflexivity|]. split; [nia|]. assert (X := N (i0 - k)%nat ltac:(lia)). replace (t - Z.of_nat (i0 - k) * p) with (f + Z.of_nat k * p) in X by nia. rewrite X. reflexivity.
Qed.

(** Everything about safe_resample. *)
Lemma safe_resample_thm midnight p limit c o t0 t1 : 0 < p -> increasing c -> spans midnight c o t0 t1 ->
  increasing (safe_resample midnight p limit c) /\
  (forall t, In t (map fst (safe_resample midnight p limit c)) <-> bin_between o p t0 t1 t) /\
  (forall t v, In (t, Some v) (safe_resample midnight p limit c) -> filled c p limit t v) /\
  (forall t v, bin_between o p t0 t1 t -> filled c p limit t v -> exists v', In (t, Some v') (safe_resample midnight p limit c) /\ (v' == v)%Q).
Proof.
  intros P S SP. unfold safe_resample. rewrite (keep_first_id c S []) by (intros x _ []). assert (S' := strict_sorted c S).
  assert (T : forall t, In t (map fst (ffill limit None 0 (resample_mean midnight p c))) <-> bin_between o p t0 t1 t) by (intros t; rewrite ffill_times; apply resample_times; assumption).
  split; [apply (increasing_map (resample_mean midnight p c)); [symmetry; apply ffill_times|apply grid_increasing; assumption]|]. split; [exact T|]. split.
  - intros t v H. apply (proj1 (fill_value midnight p limit c o t0 t1 t P S' SP (proj1 (T t) (in_map fst _ _ H)))). exact H.
  - intros t v B F. apply (proj2 (fill_value midnight p limit c o t0 t1 t P S' SP B)). exact F.
Qed.
Lemma window_sample c t p v : window_mean c t p v -> exists s w, In (s, Some w) c /\ t <= s < t + p.
Proof.
  intros [N _]. unfold window_values in N. induction c as [|[s w] c IH]; [cbn in N; congruence|]. cbn [flat_map fst snd] in N. destruct ((t <=? s) && (s <? t + p))%bool eqn:E.
  - destruct w as [w|]; [exists s, w; split; [left; reflexivity|lia]|]. destruct (IH N) as (s' & w' & H & R). exists s', w'. split; [right; exact H|exact R].
  - destruct (IH N) as (s' & w' & H & R). exists s', w'. split; [right; exact H|exact R].
Qed.
Lemma not_stale midnight p m c o t0 t1 t v : 0 < p -> 0 <= m -> increasing c -> spans midnight c o t0 t1 ->
  In (t, Some v) (safe_resample midnight p (ffill_limit m p) c) -> exists s w, In (s, Some w) c /\ t - (m + p) < s < t + p.
Proof.
  intros P M S SP H. destruct (safe_resample_thm midnight p (ffill_limit m p) c o t0 t1 P S SP) as (_ & _ & F & _). destruct (F t v H) as (j & J & W & _). destruct (window_sample _ _ _ _ W) as (s & w & I & R). exists s, w. split; [exact I|]. assert (L := limit_bound m p P M). nia.
Qed.
Lemma keep_first_resample midnight p limit c : not_decreasing c -> exists d, increasing d /\ safe_resample midnight p limit c = safe_resample midnight p limit d /\
  (forall x, In x d -> In x c) /\ (forall t, In t (map fst c) -> In t (map fst d)) /\
  (forall x, In x d -> exists a b, c = a ++ x :: b /\ ~ In (fst x) (map fst a)).
Proof.
  intros S. assert (S' := keep_first_sorted c S []). exists (keep_first [] c). split; [exact S'|]. unfold safe_resample. rewrite (keep_first_id _ S' []) by (intros x _ []). split; [reflexivity|]. split; [intros x H; apply (keep_first_in c [] x H)|]. split.
  - assert (X : forall l seen t, In t (map fst l) -> In t seen \/ In t (map fst (keep_first seen l))).
    { induction l as [|y l IH]; intros seen t H; [destruct H|]. cbn [keep_first map] in *. destruct (existsb (Z.eqb (fst y)) seen) eqn:E.
      - destruct H as [<-|H]; [left; apply existsb_exists in E; destruct E as (z & Hz & E); apply Z.eqb_eq in E; subst z; exact Hz|apply IH, H].
      - destruct H as [<-|H]; [right; left; reflexivity|]. destruct (IH (fst y :: seen) t H) as [[<-|I]|I]; [right; left; reflexivity|left; exact I|right; right; exact I]. }
    intros t H. destruct (X c [] t H) as [[]|I]. exact I.
  - assert (X : forall l seen x, In x (keep_first seen l) -> exists a b, l = a ++ x :: b /\ ~ In (fst x) (map fst a) /\ ~ In (fst x) seen).
    { induction l as [|y l IH]; intros seen x H; [destruct H|]. cbn [keep_first] in H. destruct (existsb (Z.eqb (fst y)) seen) eqn:E.
      - destruct (IH seen x H) as (a & b & -> & N & N'). exists (y :: a), b. split; [reflexivity|]. split; [|exact N']. intros [E'|I]; [|contradiction]. apply existsb_exists in E. destruct E as (z & Hz & E). apply Z.eqb_eq in E. subst z. rewrite E' in Hz. contradiction.
      - assert (NY : ~ In (fst y) seen) by (intros I; assert (X : existsb (Z.eqb (fst y)) seen = true) by (apply existsb_exists; exists (fst y); split; [exact I|apply Z.eqb_refl]); congruence). destruct H as [<-|H]; [exists [], l; repeat split; [intros []|exact NY]|]. destruct (IH (fst y :: seen) x H) as (a & b & -> & N & N'). exists (y :: a), b. split; [reflexivity|]. split; [intros [E'|I]; [apply N'; left; exact E'|contradiction]|]. intros I. apply N'. right. exact I. }
    intros x H. destruct (X c [] x H) as (a & b & E & N & _). eauto.
Qed.

(** power_series_all_data *)
Lemma follows_tail R c cs : follows R (c :: cs) -> follows R cs.
Proof. intros H. inversion H; [constructor|assumption]. Qed.
Lemma inc_cons x (c : samples) : increasing (x :: c) -> increasing c /\ forall y, In y c -> fst x < fst y.
Proof. intros H. inversion_clear H as [|a b S F]. rewrite Forall_forall in F. auto. Qed.
Lemma inc_app (c d : samples) : increasing c -> increasing d -> (forall x y, In x c -> In y d -> fst x < fst y) -> increasing (c ++ d).
Proof.
  unfold increasing. induction 1 as [|x c S IH F]; intros D H; [exact D|]. cbn. constructor.
  - apply IH; [exact D|]. intros a b A B. apply H; [right; exact A|exact B].
  - rewrite Forall_forall in *. intros y Hy. apply in_app_iff in Hy. destruct Hy as [Hy|Hy]; [auto|]. apply H; [left; reflexivity|exact Hy].
Qed.
Lemma drop_thm cs : Forall (fun c => c <> [] /\ increasing c) cs -> follows Z.le cs ->
  forall e, match e, cs with Some e', c :: _ => forall x, In x c -> e' <= fst x | _, _ => True end ->
  let out := concat (drop_overlap e cs) in
  increasing out /\ (forall x, In x out -> In x (concat cs)) /\ (forall x, In x out -> match e with Some e' => e' < fst x | None => True end) /\
  (forall t, In t (map fst (concat cs)) -> In t (map fst out) \/ e = Some t).
Proof.
  induction cs as [|c cs IH]; intros F FO e E; cbn [drop_overlap concat].
  - split; [constructor|]. split; [intros x []|]. split; intros x [].
  - inversion_clear F as [|c0 l0 [NE S] F']. destruct c as [|x c]; [congruence|]. destruct (inc_cons x c S) as [SC LT]. set (l := last (map fst (x :: c)) (fst x)).
    assert (LAST : forall y, In y (x :: c) -> fst y <= l) by (intros y Hy; apply (last_time (x :: c) (fst x) y (strict_sorted _ S) Hy)).
    destruct (last_in (x :: c) (fst x) ltac:(discriminate)) as (z & Hz & EZ). fold l in EZ.
    destruct (IH F' (follows_tail _ _ _ FO) (Some l)) as (A & B & C & D).
    { destruct cs as [|d cs]; [exact I|]. inversion FO as [| |? ? ? H1 H2]; subst. intros y Hy. rewrite EZ. apply H1; assumption. }
    set (rest := concat (drop_overlap (Some l) cs)) in *.
    set (kept := match e with Some e' => if fst x <=? e' then c else x :: c | None => x :: c end).
    assert (K : (kept = c /\ e = Some (fst x)) \/ (kept = x :: c /\ forall e', e = Some e' -> e' < fst x)).
    { unfold kept. destruct e as [e'|]; [|right; split; [reflexivity|discriminate]]. destruct (Z.leb_spec (fst x) e') as [L|L]; [left|right; split; [reflexivity|intros ? [= <-]; exact L]]. split; [reflexivity|]. f_equal. assert (X := E x (or_introl eq_refl)). lia. }
    change (increasing (kept ++ rest) /\ (forall y, In y (kept ++ rest) -> In y ((x :: c) ++ concat cs)) /\ (forall y, In y (kept ++ rest) -> match e with Some e' => e' < fst y | None => True end) /\ (forall t, In t (map fst ((x :: c) ++ concat cs)) -> In t (map fst (kept ++ rest)) \/ e = Some t)).
    assert (KI : incl kept (x :: c)) by (destruct K as [[-> _]|[-> _]]; [intros y Hy; right; exact Hy|apply incl_refl]).
    assert (KS : increasing kept) by (destruct K as [[-> _]|[-> _]]; assumption).
    assert (KE : forall y, In y kept -> match e with Some e' => e' < fst y | None => True end).
    { destruct K as [[-> ->]|[-> H]]; intros y Hy; [apply LT, Hy|]. destruct e as [e'|]; [|exact I]. assert (X := H e' eq_refl). destruct Hy as [<-|Hy]; [exact X|]. assert (Y := LT y Hy). lia. }
    assert (EL : forall e', e = Some e' -> e' <= l). { intros e' ->. assert (X := E x (or_introl eq_refl)). assert (Y := LAST x (or_introl eq_refl)). lia. }
    split; [|split; [|split]].
    + apply inc_app; [exact KS|exact A|]. intros a b Ha Hb. assert (X := LAST a (KI a Ha)). assert (Y : l < fst b) by exact (C b Hb). lia.
    + intros y Hy. rewrite in_app_iff in *. destruct Hy as [Hy|Hy]; [left; apply KI, Hy|right; apply B, Hy].
    + intros y Hy. apply in_app_iff in Hy. destruct Hy as [Hy|Hy]; [apply KE, Hy|]. destruct e as [e'|]; [|exact I]. assert (X : l < fst y) by exact (C y Hy). assert (Y := EL e' eq_refl). lia.
    + assert (OWN : forall y, In y (x :: c) -> In (fst y) (map fst (kept ++ rest)) \/ e = Some (fst y)). { intros y Hy. destruct K as [[-> K]|[-> _]]; [destruct Hy as [<-|Hy]; [right; exact K|]|]; left; rewrite map_app, in_app_iff; left; apply in_map, Hy. }
      intros t Ht. rewrite map_app, in_app_iff in Ht. destruct Ht as [Ht|Ht]; [apply in_map_iff in Ht; destruct Ht as (y & <- & Hy); apply OWN, Hy|].
      destruct (D t Ht) as [X|X]; [left; rewrite map_app, in_app_iff; right; exact X|]. injection X as <-. rewrite EZ. apply OWN, Hz.
Qed.
Lemma drop_nothing cs : Forall (fun c => c <> [] /\ increasing c) cs -> follows Z.lt cs ->
  forall e, match e, cs with Some e', c :: _ => forall x, In x c -> e' < fst x | _, _ => True end -> drop_overlap e cs = cs.
Proof.
  induction cs as [|c cs IH]; intros F FO e E; [reflexivity|]. cbn [drop_overlap]. inversion_clear F as [|c0 l0 [NE S] F']. destruct c as [|x c]; [congruence|]. rewrite (IH F' (follows_tail _ _ _ FO)).
  - destruct e as [e'|]; [|reflexivity]. assert (X := E x (or_introl eq_refl)). replace (fst x <=? e') with false by lia. reflexivity.
  - destruct cs as [|d cs]; [exact I|]. inversion FO as [| |? ? ? H1 H2]; subst. intros y Hy. destruct (last_in (x :: c) (fst x) ltac:(discriminate)) as (z & Hz & ->). apply H1; assumption.
Qed.
Lemma filter_all (cs : list samples) : Forall (fun c => c <> [] /\ increasing c) cs -> filter nonempty cs = cs.
Proof. induction 1 as [|c cs [N _] F IH]; [reflexivity|]. cbn. destruct c; [congruence|]. cbn. rewrite IH. reflexivity. Qed.
Lemma concat_nonempty (cs : list samples) : concat (filter nonempty cs) = concat cs.
Proof. induction cs as [|[|x c] cs IH]; cbn; [reflexivity|exact IH|]. rewrite IH. reflexivity. Qed.
Lemma filter_good (cs : list samples) : Forall increasing cs -> Forall (fun c => c <> [] /\ increasing c) (filter nonempty cs).
Proof. rewrite !Forall_forall. intros H c Hc. apply filter_In in Hc. destruct Hc as [Hc N]. split; [destruct c; [discriminate|discriminate]|apply H, Hc]. Qed.
Lemma all_data_raw cs : Forall increasing cs -> follows Z.lt (filter nonempty cs) ->
  match power_series_all_data cs with Some all => all = concat cs | None => concat cs = [] end.
Proof.
  intros F FO. unfold power_series_all_data. assert (G := filter_good cs F). rewrite <- (concat_nonempty cs). destruct (filter nonempty cs) as [|c l] eqn:E; [reflexivity|]. rewrite (drop_nothing (c :: l) G FO None); reflexivity.
Qed.
Lemma all_data_thm cs : Forall increasing cs -> follows Z.le (filter nonempty cs) -> concat cs <> [] ->
  exists all, power_series_all_data cs = Some all /\ increasing all /\ (forall x, In x all -> In x (concat cs)) /\ (forall t, In t (map fst (concat cs)) -> In t (map fst all)).
Proof.
  intros F FO NE. unfold power_series_all_data. assert (G := filter_good cs F). rewrite <- (concat_nonempty cs) in *. destruct (filter nonempty cs) as [|c l] eqn:E; [cbn in NE; congruence|]. destruct (drop_thm (c :: l) G FO None I) as (A & B & _ & D). eexists. split; [reflexivity|]. split; [exact A|]. split; [exact B|]. intros t Ht. destruct (D t Ht) as [X|X]; [exact X|discriminate].
Qed.

(** resampled chunks *)
Lemma bin_same o o' p t : 0 < p -> (exists k, o' = o + k * p) -> bin o' p t = bin o p t.
Proof. intros P [k ->]. apply bin_spec; [exact P|]. destruct (proj1 (bin_spec o p t _ P) eq_refl) as [[j J] R]. split; [exists (j - k); lia|exact R]. Qed.
Lemma resampled_follow midnight p limit o cs : 0 < p -> Forall (fun c => c <> [] /\ increasing c) cs -> follows Z.lt cs ->
  (forall c x r, In c cs -> c = x :: r -> exists k, midnight (fst x) = o + k * p) ->
  Forall increasing (map (safe_resample midnight p limit) cs) /\ follows Z.le (map (safe_resample midnight p limit) cs) /\ Forall (fun c => c <> []) (map (safe_resample midnight p limit) cs).
Proof.
  intros P F FO O.
  assert (SP : forall c, In c cs -> exists m t0 t1, spans midnight c m t0 t1 /\ (exists k, m = o + k * p) /\ (forall x, In x c -> t0 <= fst x <= t1) /\ increasing c /\ (exists x, In x c /\ fst x = t0) /\ exists y, In y c /\ fst y = t1).
  { intros c Hc. rewrite Forall_forall in F. destruct (F c Hc) as [N S]. destruct c as [|x r] eqn:EC; [congruence|]. destruct (exists_last N) as (r' & y & E'). exists (midnight (fst x)), (fst x), (fst y). split; [split; [exists x, r; auto|exists y, r'; auto]|]. split; [apply (O (x :: r) x r Hc eq_refl)|]. split; [|split; [exact S|split; [exists x; split; [left; reflexivity|reflexivity]|exists y; split; [rewrite E'; apply in_app_iff; right; left; reflexivity|reflexivity]]]]. intros z Hz. split.
    - destruct Hz as [<-|Hz]; [lia|]. destruct (inc_cons x r S) as [_ LT]. assert (X := LT z Hz). lia.
    - assert (X := last_time (x :: r) 0 z (strict_sorted _ S) Hz). rewrite E', last_snoc in X. exact X. }
  split; [|split].
  - rewrite Forall_map, Forall_forall. intros c Hc. destruct (SP c Hc) as (m & t0 & t1 & S1 & _ & _ & I & _). apply (safe_resample_thm midnight p limit c m t0 t1 P I S1).
  - clear O F. induction FO as [|c|c d cs H FO IH]; cbn [map]; [constructor|constructor|]. constructor; [|apply IH; intros e He; apply SP; right; exact He].
    destruct (SP c (or_introl eq_refl)) as (m & t0 & t1 & S1 & K1 & _ & I1 & _ & (y & Hy & EY)). destruct (SP d (or_intror (or_introl eq_refl))) as (m' & t0' & t1' & S2 & K2 & _ & I2 & (x & Hx & EX) & _). intros a b Ha Hb.
    assert (BA := proj1 (proj1 (proj2 (safe_resample_thm midnight p limit c m t0 t1 P I1 S1)) (fst a)) (in_map fst _ _ Ha)). assert (BB := proj1 (proj1 (proj2 (safe_resample_thm midnight p limit d m' t0' t1' P I2 S2)) (fst b)) (in_map fst _ _ Hb)).
    apply (between_bins _ _ _ _ _ P) in BA, BB. destruct BA as (_ & _ & BA), BB as (j & BB & _). rewrite (bin_same o m p t1 P K1) in BA. rewrite (bin_same o m' p t0' P K2) in BB. assert (L := H y x Hy Hx). assert (M := bin_mono o p t1 t0' P ltac:(lia)). nia.
  - rewrite Forall_map, Forall_forall. intros c Hc. destruct (SP c Hc) as (m & t0 & t1 & S1 & _ & _ & I & _). destruct (safe_resample_thm midnight p limit c m t0 t1 P I S1) as (_ & T & _). intros E. rewrite E in T. cbn in T. apply (T (bin m p t0)). apply (between_bins _ _ _ _ _ P). exists 0%nat. split; [lia|]. apply bin_mono; [exact P|]. destruct S1 as [(x & r & -> & <- & _) (y & r' & E' & <-)]. assert (X := last_time (x :: r) 0 x (strict_sorted _ I) (or_introl eq_refl)). rewrite E', last_snoc in X. exact X.
Qed.
Lemma all_data_resampled midnight p limit o cs : 0 < p -> cs <> [] -> Forall (fun c => c <> [] /\ increasing c) cs -> follows Z.lt cs ->
  (forall c x r, In c cs -> c = x :: r -> exists k, midnight (fst x) = o + k * p) ->
  exists all, power_series_all_data (map (safe_resample midnight p limit) cs) = Some all /\ increasing all /\
    (forall x, In x all -> exists c, In c cs /\ In x (safe_resample midnight p limit c)) /\
    (forall c t, In c cs -> In t (map fst (safe_resample midnight p limit c)) -> In t (map fst all)).
Proof.
  intros P NE F FO O. destruct (resampled_follow midnight p limit o cs P F FO O) as (A & B & C). destruct (all_data_thm (map (safe_resample midnight p limit) cs) A) as (all & E & I & S & T).
  - replace (filter nonempty (map (safe_resample midnight p limit) cs)) with (map (safe_resample midnight p limit) cs); [exact B|]. symmetry. apply filter_all. rewrite Forall_forall in *. intros c Hc. split; [apply C, Hc|apply A, Hc].
  - destruct cs as [|c cs]; [congruence|]. cbn [map concat]. inversion_clear C as [|a b N _]. destruct (safe_resample midnight p limit c); [congruence|discriminate].
  - exists all. split; [exact E|]. split; [exact I|]. split.
    + intros x Hx. apply S in Hx. apply in_concat in Hx. destruct Hx as (r & Hr & Hx). apply in_map_iff in Hr. destruct Hr as (c & <- & Hc). eauto.
    + intros c t Hc Ht. apply T. apply in_map_iff in Ht. destruct Ht as (x & <- & Hx). apply in_map. apply in_concat. exists (safe_resample midnight p limit c). split; [apply in_map, Hc|exact Hx].
Qed.
