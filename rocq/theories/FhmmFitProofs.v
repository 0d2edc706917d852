From Verif Require Import Base FhmmModel FhmmSpec FhmmProofs FhmmSortProofs.
From Coq Require Import QArith Sorted Permutation.
Open Scope nat_scope.

Lemma has_samples_eq k l : has_samples (k, l) = match samples l with [] => false | _ => true end.
Proof. unfold has_samples. cbn [snd]. induction l as [|[q|] l IH]; cbn; [reflexivity|reflexivity|exact IH]. Qed.

Lemma dict_set_fresh {B} k (v : B) d : ~ In k (map fst d) -> dict_set k v d = d ++ [(k, v)].
Proof.
  induction d as [|[k' v'] d IH]; cbn; intros H; [reflexivity|]. destruct (Nat.eqb_spec k k') as [->|N]; [tauto|]. rewrite IH by tauto. reflexivity.
Qed.

Lemma learn_fold {C} (fit : nat -> list Q -> res (hmm C)) train : forall d0 d, NoDup (map fst d0 ++ map fst train) ->
  foldM (fun d x => match samples (snd x) with [] => Ok d | data => do h <- fit (fst x) data; Ok (dict_set (fst x) h d) end) train d0 = Ok d ->
  exists l, d = d0 ++ l /\ Forall2 (fun x kv => fst kv = fst x /\ fit (fst x) (samples (snd x)) = Ok (snd kv)) (filter has_samples train) l.
Proof.
  induction train as [|[k data] train IH]; intros d0 d HN E; cbn [foldM] in E.
  - injection E as <-. exists []. rewrite app_nil_r. split; [reflexivity|constructor].
  - cbn [fst snd map] in *. cbn [filter]. rewrite has_samples_eq. destruct (samples data) as [|q qs] eqn:ES.
    + cbn [bind] in E. apply IH; [|exact E]. clear -HN. apply NoDup_remove_1 in HN. exact HN.
    + destruct (fit k (q :: qs)) as [h|e] eqn:EF; [|discriminate]. cbn [bind] in E.
      assert (NI : ~ In k (map fst d0)) by (intros H; apply NoDup_remove_2 in HN; apply HN; apply in_or_app; left; exact H).
      rewrite dict_set_fresh in E by exact NI. apply IH in E.
      * destruct E as (l & -> & HF). exists ((k, h) :: l). rewrite <- app_assoc. split; [reflexivity|]. constructor; [|exact HF]. cbn [fst snd]. rewrite ES. auto.
      * rewrite map_app. cbn. rewrite <- app_assoc. exact HN.
Qed.

Lemma fit_thm {C} (fit : nat -> list Q -> res (hmm C)) self train self' : NoDup (map fst train) -> partial_fit fit self train = Ok self' ->
  app_names self' = app_names self ++ map fst train /\
  Forall2 (fun x kv => fst kv = fst x /\ exists h, fit (fst x) (samples (snd x)) = Ok h /\ sort_learnt_parameters h = Ok (snd kv)) (filter has_samples train) (individual self') /\
  exists c, create_combined_hmm (map snd (individual self')) = Ok c /\ combined self' = Some c.
Proof.
  intros HN E. unfold partial_fit in E. destruct (foldM _ train []) as [d|e] eqn:E1; [|discriminate]. cbn [bind] in E.
  destruct (mapM _ d) as [s|e] eqn:E2; [|discriminate]. cbn [bind] in E. destruct (create_combined_hmm (map snd s)) as [c|e] eqn:E3; [|discriminate]. injection E as <-. cbn [app_names individual combined]. split; [reflexivity|]. split; [|eauto].
  apply learn_fold in E1; [|exact HN]. destruct E1 as (l & -> & HF). cbn [app] in E2. apply mapM_F2 in E2. clear -HF E2. revert s E2. induction HF as [|x kv xs l [H1 H2] HF IH]; intros s E2; inversion_clear E2; constructor.
  - destruct (sort_learnt_parameters (snd kv)) as [h'|e] eqn:ES; [|discriminate]. injection H as <-. cbn. split; [exact H1|]. eauto.
  - apply IH. assumption.
Qed.

(** Names that occur several times. *)
Lemma dict_set_keys {B} k (v : B) d k' : In k' (map fst (dict_set k v d)) <-> k' = k \/ In k' (map fst d).
Proof.
  induction d as [|[k0 v0] d IH]; cbn; [intuition congruence|]. destruct (Nat.eqb_spec k k0) as [->|N]; cbn; [intuition congruence|]. rewrite IH. intuition congruence.
Qed.
Lemma dict_set_nodup {B} k (v : B) d : NoDup (map fst d) -> NoDup (map fst (dict_set k v d)).
Proof.
  induction d as [|[k0 v0] d IH]; cbn; intros N; [repeat constructor; intros []|]. inversion N; subst. destruct (Nat.eqb_spec k k0) as [->|E]; cbn; [exact N|]. constructor; [|exact (IH H2)].
  rewrite dict_set_keys. intros [X|X]; [congruence|contradiction].
Qed.
Lemma dict_set_in {B} k (v : B) d k' v' : NoDup (map fst d) -> In (k', v') (dict_set k v d) -> (k' = k /\ v' = v) \/ (k' <> k /\ In (k', v') d).
Proof.
  induction d as [|[k0 v0] d IH]; cbn; intros N H; [destruct H as [H|[]]; left; split; congruence|]. inversion N; subst. destruct (Nat.eqb_spec k k0) as [->|E]; cbn in H.
  - destruct H as [H|H]; [left; split; congruence|]. right. split; [|right; exact H]. intros ->. apply H2. exact (in_map fst _ _ H).
  - destruct H as [H|H]; [right; split; [congruence|left; exact H]|]. destruct (IH H3 H) as [X|[X Y]]; [left; exact X|right; split; [exact X|right; exact Y]].
Qed.
(** The last entry of [train] with this name that has samples. *)
Lemma learn_last {C} (fit : nat -> list Q -> res (hmm C)) train : forall d,
  foldM (fun d x => match samples (snd x) with [] => Ok d | data => do h <- fit (fst x) data; Ok (dict_set (fst x) h d) end) train [] = Ok d ->
  NoDup (map fst d) /\ (forall name, In name (map fst d) <-> In name (map fst (filter has_samples train))) /\
  forall name h, In (name, h) d -> exists before data after, train = before ++ (name, data) :: after /\ fit name (samples data) = Ok h /\
    has_samples (name, data) = true /\ ~ In name (map fst (filter has_samples after)).
Proof.
  induction train as [|[k data] train IH] using rev_ind; intros d E.
  - injection E as <-. split; [constructor|]. split; [intros; reflexivity|intros name h []].
  - assert (F : forall (f : list (nat * hmm C) -> nat * list (option Q) -> res (list (nat * hmm C))) l x d0, foldM f (l ++ [x]) d0 = do d1 <- foldM f l d0; f d1 x).
    { clear. intros f l x. induction l as [|y l IH]; intros d0; cbn; [destruct (f d0 x); reflexivity|]. destruct (f d0 y); cbn; [apply IH|reflexivity]. }
    rewrite F in E. destruct (foldM _ train []) as [d1|e]; cbn [bind] in E; [|discriminate]. destruct (IH d1 eq_refl) as (I1 & I2 & I3). clear IH F. cbn [fst snd] in E.
    pose proof (has_samples_eq k data) as HS. destruct (samples data) as [|q qs] eqn:ES.
    + injection E as <-. split; [exact I1|]. split.
      * intros name. rewrite I2, filter_app. cbn [filter]. rewrite HS, app_nil_r. reflexivity.
      * intros name h H. destruct (I3 name h H) as (bf & dt & af & -> & X1 & X2 & X3). exists bf, dt, (af ++ [(k, data)]). rewrite <- app_assoc. split; [reflexivity|]. split; [exact X1|]. split; [exact X2|]. rewrite filter_app. cbn [filter]. rewrite HS, app_nil_r. exact X3.
    + destruct (fit k (q :: qs)) as [h0|e] eqn:EF; cbn [bind] in E; [|discriminate]. injection E as <-. split; [exact (dict_set_nodup _ _ _ I1)|]. split.
      * intros name. rewrite dict_set_keys, I2, filter_app, map_app, in_app_iff. cbn [filter]. rewrite HS. cbn. intuition congruence.
      * intros name h H. apply dict_set_in in H; [|exact I1]. destruct H as [[-> ->]|[NK H]].
        -- exists train, data, []. split; [reflexivity|]. rewrite ES. split; [exact EF|]. split; [exact HS|intros []].
        -- destruct (I3 name h H) as (bf & dt & af & -> & X1 & X2 & X3). exists bf, dt, (af ++ [(k, data)]). rewrite <- app_assoc. split; [reflexivity|]. split; [exact X1|]. split; [exact X2|]. rewrite filter_app, map_app, in_app_iff. cbn [filter]. rewrite HS. cbn. intuition congruence.
Qed.
Lemma retrained_thm {C} (fit : nat -> list Q -> res (hmm C)) self train self' : partial_fit fit self train = Ok self' ->
  NoDup (map fst (individual self')) /\ (forall name, In name (map fst (individual self')) <-> In name (map fst (filter has_samples train))) /\
  forall name m, In (name, m) (individual self') -> exists before data after h, train = before ++ (name, data) :: after /\
    has_samples (name, data) = true /\ ~ In name (map fst (filter has_samples after)) /\ fit name (samples data) = Ok h /\ sort_learnt_parameters h = Ok m.
Proof.
  intros E. unfold partial_fit in E. destruct (foldM _ train []) as [d|e] eqn:E1; [|discriminate]. cbn [bind] in E.
  destruct (mapM _ d) as [s|e] eqn:E2; [|discriminate]. cbn [bind] in E. destruct (create_combined_hmm (map snd s)) as [c|e] eqn:E3; [|discriminate]. injection E as <-. cbn [individual].
  apply learn_last in E1. destruct E1 as (N & K & L). apply mapM_F2 in E2.
  assert (M : map fst s = map fst d).
  { clear -E2. induction E2 as [|x y l r H F IH]; [reflexivity|]. cbn. destruct (sort_learnt_parameters (snd x)); [|discriminate]. injection H as <-. cbn. rewrite IH. reflexivity. }
  rewrite M. split; [exact N|]. split; [exact K|]. intros name m H.
  assert (X : exists h, In (name, h) d /\ sort_learnt_parameters h = Ok m).
  { clear -E2 H. induction E2 as [|x y l r HX F IH]; [destruct H|]. destruct H as [->|H].
    - destruct x as [k h]. cbn [fst snd] in HX. destruct (sort_learnt_parameters h) as [h'|] eqn:ES; [|discriminate]. injection HX as -> ->. exists h. split; [left; reflexivity|exact ES].
    - destruct (IH H) as (h & A & B). exists h. split; [right; exact A|exact B]. }
  destruct X as (h & A & B). destruct (L name h A) as (bf & dt & af & X1 & X2 & X3 & X4). exists bf, dt, af, h. auto.
Qed.

(** Rounding. *)
From Coq Require Import Qabs Qround Lqa.
Open Scope nat_scope.
Lemma round_even_ok x : rounded x (round_even x).
Proof.
  unfold rounded, round_even. set (f := Qfloor x). assert (F1 : (inject_Z f <= x)%Q) by apply Qfloor_le. assert (F2 : (x < inject_Z (f + 1))%Q) by apply Qlt_floor.
  rewrite inject_Z_plus in F2. change (inject_Z 1) with 1%Q in F2.
  destruct (Qle_bool (1#2) (x - inject_Z f)) eqn:E1; cbn [negb].
  - apply Qle_bool_iff in E1. destruct (Qle_bool (x - inject_Z f) (1#2)) eqn:E2; cbn [negb].
    + apply Qle_bool_iff in E2. destruct (Z.even f) eqn:EV.
      * rewrite Qabs_pos by lra. split; [lra|auto].
      * rewrite inject_Z_plus. change (inject_Z 1) with 1%Q. rewrite Qabs_neg by lra. split; [lra|]. intros _. rewrite Z.even_add. rewrite EV. reflexivity.
    + assert (E3 : ~ (x - inject_Z f <= 1#2)%Q) by (intros X; apply Qle_bool_iff in X; congruence). rewrite inject_Z_plus. change (inject_Z 1) with 1%Q. rewrite Qabs_neg by lra. split; [lra|]. intros X. exfalso. lra.
  - assert (E3 : ~ (1#2 <= x - inject_Z f)%Q) by (intros X; apply Qle_bool_iff in X; congruence). rewrite Qabs_pos by lra. split; [lra|]. intros X. exfalso. lra.
Qed.
Lemma rounded_row (ms : list Q) : Forall2 (fun m c => exists z, c = Some z /\ rounded m z) ms (map (fun m => Some (round_even m)) ms).
Proof. induction ms as [|m ms IH]; constructor; [|exact IH]. eexists. split; [reflexivity|apply round_even_ok]. Qed.
Lemma predict_rounded_thm {C} ns (self : fhmm C) predict mains : individual self <> [] -> Forall (fun n => 0 < n) ns ->
  Forall2 (fun n (kv : nat * hmm C) => shaped n (startprob (snd kv)) (transmat (snd kv)) (means (snd kv)) /\ StronglySorted Qle (means (snd kv))) ns (individual self) ->
  mains <> [] -> Forall (fun s => s < size ns) (predict (map snd mains)) -> length (predict (map snd mains)) = length mains ->
  exists pi A mu rows, create_combined_hmm (map snd (individual self)) = Ok (pi, A, mu) /\
    disaggregate_one predict self mains = Ok (map Z.of_nat (seq 0 (length mains)), map fst (individual self), rows) /\
    Forall2 (fun s row => exists js ms, nth_error mu s = Some (sum ms) /\ picks (map (fun kv => means (snd kv)) (individual self)) js ms /\
                            Forall2 (fun m c => exists z, c = Some z /\ rounded m z) ms row) (predict (map snd mains)) rows.
Proof.
  intros H1 H2 H3 H4 H5 H6. destruct (predict_thm ns self predict mains H1 H2 H3 H4 H5 H6) as (pi & A & mu & rows & E1 & E2 & F). exists pi, A, mu, rows. split; [exact E1|]. split; [exact E2|].
  clear -F. induction F as [|s row ss rows (js & ms & X & Y & ->) F IH]; constructor; [|exact IH]. exists js, ms. split; [exact X|]. split; [exact Y|]. apply rounded_row.
Qed.
