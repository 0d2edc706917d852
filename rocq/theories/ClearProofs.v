From Coq Require Import Ascii String Lia Bool.
From Verif Require Import Base TimeFrameModel StoreModel KeyModel KeySpec KeyProofs ConvModel ConvSpec ConvProofs RemoveModel RemoveSpec RemoveProofs CacheModel CacheSpec CacheProofs2 ClearModel ClearSpec.
Import List.
Open Scope list_scope.

(** ** Keys *)
Definition path (m : meter_id) : list str := [lit "building" ++ decimal (id_building m); lit "elec"; lit "cache"; lit "meter" ++ meter_str (id_instance m)].
Lemma path_components m : Forall component (path m).
Proof.
  assert (L : forall s, existsb (Ascii.eqb slash) (lit s) = false -> ~ In slash (lit s)).
  { intros s E K. rewrite <- not_true_iff_false in E. apply E. apply existsb_exists. exists slash. split; [exact K|apply Ascii.eqb_refl]. }
  unfold path. repeat constructor; try discriminate; try (apply L; reflexivity).
  - intros K. apply in_app_or in K. destruct K as [K|K]; [revert K; apply L; reflexivity|]. revert K. apply digits_no_slash, decimal_digits.
  - intros K. apply in_app_or in K. destruct K as [K|K]; [revert K; apply L; reflexivity|]. pose proof (meter_chars (id_instance m)) as F. rewrite Forall_forall in F. apply slash_not_meter. apply F, K.
Qed.
Lemma parts_stat m s : stat_name s -> key_parts (key_for_cached_stat m s) = path m ++ [s].
Proof.
  intros [N S]. rewrite <- (parts_separated (path m ++ [s])); [|apply Forall_app; split; [apply path_components|]; constructor; [now split|constructor]|discriminate].
  f_equal.
Qed.
Lemma parts_clear m : key_parts (key_for_cached_stat m []) = path m.
Proof.
  assert (E : key_for_cached_stat m [] = separated (path m) ++ [slash]).
  { unfold key_for_cached_stat. rewrite app_nil_r. unfold path. cbn [separated]. rewrite <- !app_assoc. reflexivity. }
  rewrite E. unfold key_parts. pose proof (strip_repeat 0 (separated (path m)) 1 (separated_bare _ (path_components m))) as K. cbn [repeat List.app] in K. rewrite K.
  destruct (separated (path m)) as [|a s] eqn:E2; [apply separated_nil in E2; [discriminate|apply path_components]|]. rewrite <- E2. apply split_separated; [apply path_components|discriminate].
Qed.
Lemma path_alike m m' : proper_id m -> proper_id m' -> path m = path m' <-> alike m m'.
Proof.
  intros [B I] [B' I']. unfold path, alike. split.
  - intros E. injection E as E1 E2. split; [now apply decimal_inj|now apply meter_str_inj].
  - intros [E1 E2]. now rewrite E1, E2.
Qed.
Lemma under_stat m m' s : proper_id m -> proper_id m' -> prefixb (path m) (path m' ++ [s]) = true <-> alike m m'.
Proof.
  intros P P'. rewrite prefixb_spec. rewrite <- (path_alike m m' P P'). split.
  - intros (r & E). unfold path in *. cbn [List.app] in E. injection E as E1 E2 _. now rewrite E1, E2.
  - intros <-. eauto.
Qed.

Section Obs.
Context {A : Type}.
Implicit Types root : node A.

Lemma obs_find root p : obs root p = None <-> find_node root p = None.
Proof.
  rewrite <- (app_nil_r p) at 1. rewrite obs_under. destruct (find_node root p) as [c|]; [|tauto]. cbn. split; discriminate.
Qed.
Lemma clear_meter_ok m root : exists root', clear_meter m root = (root', None) /\ (obs root (path m) = None -> root' = root) /\
  forall q, obs root' q = if prefixb (path m) q then None else obs root q.
Proof.
  unfold clear_meter, hdf_remove, get_node. rewrite parts_clear. destruct (find_node root (path m)) as [c|] eqn:F.
  - exists (remove_node root (path m)). split; [reflexivity|]. split; [intros K; apply obs_find in K; congruence|]. intros q. apply obs_remove. discriminate.
  - exists root. split; [reflexivity|]. split; [reflexivity|]. intros q. destruct (prefixb (path m) q) eqn:P; [|reflexivity]. apply obs_find in F. eapply obs_none_prefix; eauto.
Qed.
End Obs.

(** ** Groups *)
Section MemberInd.
Variable P : member -> Prop.
Hypothesis HM : forall m, P (Meter m).
Hypothesis HG : forall l d, Forall P l -> P (Group l d).
Fixpoint member_induction (x : member) : P x :=
  match x with
  | Meter m => HM m
  | Group l d => HG l d ((fix go l : Forall P l := match l with [] => Forall_nil P | y :: r => Forall_cons y (member_induction y) (go r) end) l)
  end.
End MemberInd.
Fixpoint meters (x : member) : list meter_id := match x with Meter m => [m] | Group l _ => flat_map meters l end.
Lemma meters_enabled x : forall m, In m (meters x) <-> enabled x m.
Proof.
  induction x as [m0|l d IH] using member_induction; intros m; cbn.
  - split; [intros [<-|[]]; constructor|]. intros H. inversion H. now left.
  - rewrite in_flat_map. rewrite Forall_forall in IH. split.
    + intros (x & H & K). apply (enabled_group l d x m H). now apply IH.
    + intros H. inversion H as [|l0 d0 x m1 K1 K2]. subst. exists x. split; [exact K1|]. now apply IH.
Qed.

Section Groups.
Context {A : Type}.
Implicit Types root : node A.
Definition hit (ms : list meter_id) (q : list str) : bool := existsb (fun m => prefixb (path m) q) ms.
Definition cleared (ms : list meter_id) (f : node A -> node A * option exn) : Prop :=
  forall root, exists root', f root = (root', None) /\ ((forall m, In m ms -> obs root (path m) = None) -> root' = root) /\ forall q, obs root' q = if hit ms q then None else obs root q.
Lemma dataset_cons x l root : dataset_clear_cache (x :: l) root = match clear_cache x root with (r, None) => dataset_clear_cache l r | (r, Some e) => (r, Some e) end.
Proof. reflexivity. Qed.
Lemma clear_group l d root : clear_cache (Group l d) root = dataset_clear_cache l root.
Proof.
  cbn [clear_cache]. revert root. induction l as [|x l IH]; intros root; [reflexivity|]. rewrite dataset_cons. destruct (clear_cache x root) as [r [e|]]; [reflexivity|]. apply IH.
Qed.
Lemma dataset_ok l : Forall (fun x => cleared (meters x) (clear_cache x)) l -> cleared (flat_map meters l) (dataset_clear_cache l).
Proof.
  induction 1 as [|x l H F IH]; intros root; [exists root; auto|]. rewrite dataset_cons. destruct (H root) as (r1 & E1 & S1 & O1). rewrite E1.
  destruct (IH r1) as (r2 & E2 & S2 & O2). exists r2. split; [exact E2|]. cbn [flat_map]. split.
  - intros K. assert (r1 = root) by (apply S1; intros m Hm; apply K, in_or_app; now left). subst r1. apply S2. intros m Hm. apply K, in_or_app. now right.
  - intros q. rewrite O2, O1. unfold hit. rewrite existsb_app. destruct (existsb _ (meters x)), (existsb _ (flat_map meters l)); reflexivity.
Qed.
Lemma clear_ok x : cleared (meters x) (clear_cache x).
Proof.
  induction x as [m|l d IH] using member_induction.
  - intros root. destruct (clear_meter_ok m root) as (r & E & S & O). exists r. split; [exact E|]. split; [intros K; apply S, K; now left|].
    intros q. rewrite O. unfold hit. cbn [meters existsb]. now rewrite orb_false_r.
  - intros root. rewrite clear_group. apply (dataset_ok l IH root).
Qed.

Definition targets_of (o : op A) : list meter_id := match o with Store _ _ _ => [] | Clear x => meters x | ClearAll l => flat_map meters l end.
Lemma in_targets o m : In m (targets_of o) <-> targets o m.
Proof.
  destruct o as [m0 s rows|x|l]; cbn; [tauto|apply meters_enabled|]. rewrite in_flat_map. split; intros (x & H & K); exists x; (split; [exact H|]); now apply meters_enabled.
Qed.
Lemma step_clear o : (forall m s rows, o <> Store m s rows) -> cleared (targets_of o) (step o).
Proof.
  destruct o as [m0 s rows|x|l]; intros H; [elim (H m0 s rows eq_refl)|apply clear_ok|]. apply dataset_ok. apply Forall_forall. intros x _. apply clear_ok.
Qed.

Lemma cached_obs m s root : stat_name s -> get_cached_stat m s root = match fst (or_new (obs root (path m ++ [s]))) with Some r => r | None => [] end.
Proof.
  intros N. rewrite <- (parts_stat m s N), <- table_obs. unfold get_cached_stat, table_at. destruct (get_node _ _); reflexivity.
Qed.
Lemma hit_clears (o : op A) m s : proper o -> proper_id m -> hit (targets_of o) (path m ++ [s]) = true <-> clears o m.
Proof.
  intros [P _] Pm. unfold hit, clears. rewrite existsb_exists. split; intros (m' & H & K); exists m'.
  - apply in_targets in H. split; [exact H|]. apply (under_stat m' m s); auto.
  - split; [now apply in_targets|]. apply (under_stat m' m s); auto.
Qed.

(** One step. *)
Lemma step_cleared o m s root : proper o -> proper_id m -> stat_name s -> clears o m -> get_cached_stat m s (fst (step o root)) = [].
Proof.
  intros P Pm N C. assert (H : forall m0 s0 rows, o <> Store m0 s0 rows) by (intros m0 s0 rows ->; destruct C as (m' & [] & _)).
  destruct (step_clear o H root) as (r & E & _ & O). rewrite E. cbn [fst]. rewrite (cached_obs m s r N), O, (proj2 (hit_clears o m s P Pm) C). reflexivity.
Qed.
Lemma step_kept o m s root : proper o -> proper_id m -> stat_name s -> ~ clears o m -> (forall m' rows, o = Store m' s rows -> ~ alike m' m) ->
  get_cached_stat m s (fst (step o root)) = get_cached_stat m s root.
Proof.
  intros P Pm N C S. destruct o as [m0 s0 rows|x|l].
  - cbn [step fst]. pose proof (step_quiet (Append (key_for_cached_stat m0 s0) rows) root (key_for_cached_stat m s) (fun K => K)) as K. cbn [hdf_step fst] in K.
    destruct P as [_ [P0 N0]]. destruct (path_dec _ _) as [E|E] in K.
    + exfalso. rewrite (parts_stat m0 s0 N0), (parts_stat m s N) in E. apply app_inj_tail in E. destruct E as [E ->]. apply (S m0 rows eq_refl). apply (path_alike m0 m P0 Pm). exact E.
    + rewrite extend_nil in K. unfold table_at, get_cached_stat in *. destruct (get_node (hdf_append _ rows root) _) as [n|], (get_node root _) as [n'|]; try rewrite K; try rewrite <- K; reflexivity.
  - destruct (step_clear (Clear x) ltac:(discriminate) root) as (r & E & _ & O). rewrite E. cbn [fst]. rewrite !cached_obs, O by exact N.
    destruct (hit _ _) eqn:Hh; [|reflexivity]. elim C. now apply (hit_clears (Clear x) m s P Pm).
  - destruct (step_clear (ClearAll l) ltac:(discriminate) root) as (r & E & _ & O). rewrite E. cbn [fst]. rewrite !cached_obs, O by exact N.
    destruct (hit _ _) eqn:Hh; [|reflexivity]. elim C. now apply (hit_clears (ClearAll l) m s P Pm).
Qed.
Lemma step_stored m' s rows m root : proper_id m' -> proper_id m -> stat_name s -> alike m' m ->
  get_cached_stat m s (fst (step (Store m' s rows) root)) = get_cached_stat m s root ++ rows.
Proof.
  intros P' Pm N L. cbn [step fst]. pose proof (step_quiet (Append (key_for_cached_stat m' s) rows) root (key_for_cached_stat m s) (fun K => K)) as K. cbn [hdf_step fst] in K.
  destruct (path_dec _ _) as [E|E] in K.
  - unfold table_at, get_cached_stat in *. destruct (get_node (hdf_append _ rows root) _) as [n|], (get_node root _) as [n'|]; try destruct (n_table n); try destruct (n_table n'); cbn [extend] in K; destruct rows; cbn [extend] in K; try discriminate; try (injection K as ->); rewrite ?app_nil_r; reflexivity.
  - elim E. rewrite !parts_stat by exact N. f_equal. apply path_alike; assumption.
Qed.

Theorem quiet_ok h m s l : stored m s h l -> Forall proper h -> proper_id m -> stat_name s -> Forall (fun o => ~ clears o m) h ->
  forall root, get_cached_stat m s (run h root) = get_cached_stat m s root ++ l.
Proof.
  induction 1 as [|m' rows h l L _ IH|o h l NS _ IH]; intros P Pm N F root; [cbn; now rewrite app_nil_r| |]; apply Forall_cons_iff in P, F; destruct P as [P1 P], F as [F1 F];
    cbn [run fold_left]; change (fold_left _ h ?r) with (run h r); rewrite IH by assumption.
  - rewrite step_stored; [now rewrite app_assoc|apply P1|exact Pm|exact N|exact L].
  - rewrite step_kept; auto.
Qed.
Theorem history_ok h1 o h2 m s l root : Forall proper (o :: h2) -> proper_id m -> stat_name s -> clears o m -> Forall (fun o => ~ clears o m) h2 -> stored m s h2 l ->
  get_cached_stat m s (run (h1 ++ o :: h2) root) = l.
Proof.
  intros P Pm N C F S. apply Forall_cons_iff in P. destruct P as [P1 P]. unfold run. rewrite fold_left_app. cbn [fold_left]. fold (run h1 root). fold (run h2 (fst (step o (run h1 root)))).
  rewrite (quiet_ok h2 m s l S P Pm N F), (step_cleared o m s _ P1 Pm N C). reflexivity.
Qed.
Theorem steps_fine o root : snd (step o root) = None.
Proof.
  destruct o as [m s rows|x|l]; [reflexivity| |].
  - destruct (step_clear (Clear x) ltac:(discriminate) root) as (r & E & _). now rewrite E.
  - destruct (step_clear (ClearAll l) ltac:(discriminate) root) as (r & E & _). now rewrite E.
Qed.
Lemma hit_self ms m : In m ms -> hit ms (path m) = true.
Proof. intros H. apply existsb_exists. exists m. split; [exact H|apply prefixb_refl]. Qed.
Theorem twice_ok o root : (forall m s rows, o <> Store m s rows) -> step o (fst (step o root)) = step o root.
Proof.
  intros H. destruct (step_clear o H root) as (r & E & _ & O). rewrite E. cbn [fst]. destruct (step_clear o H r) as (r2 & E2 & S2 & _). rewrite E2. f_equal. apply S2.
  intros m Hm. rewrite O, (hit_self _ m Hm). reflexivity.
Qed.
Theorem others_ok o k root : (forall m, targets o m -> ~ covers (key_for_cached_stat m []) k) -> (forall m s rows, o <> Store m s rows) ->
  table_at (fst (step o root)) k = table_at root k /\ hdf_load_metadata (fst (step o root)) k = hdf_load_metadata root k.
Proof.
  intros C H. destruct (step_clear o H root) as (r & E & _ & O). rewrite E. cbn [fst]. rewrite !table_obs, !meta_obs, O.
  destruct (hit _ _) eqn:Hh; [|auto]. exfalso. apply existsb_exists in Hh. destruct Hh as (m & Hm & K). apply in_targets in Hm. apply (C m Hm). apply covers_prefix. now rewrite parts_clear.
Qed.
End Groups.
