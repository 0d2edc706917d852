(** Proofs about the devices of the data sets opened in a process. *)
From Verif Require Import Base TimeFrameModel StoreModel ResultsModel GoodSectionsModel ResampleModel DeviceModel DeviceSpec.
Import List. Open Scope list_scope. Open Scope Z_scope.

Lemma find_set : forall k d l k', find_model k' (set_model k d l) = if Nat.eqb k' k then Some d else find_model k' l.
Proof.
  intros k d l k'. induction l as [|[k1 x] l IH]; cbn.
  - destruct (Nat.eqb k' k); reflexivity.
  - destruct (Nat.eqb_spec k k1) as [->|D]; cbn.
    + destruct (Nat.eqb k' k1); reflexivity.
    + rewrite IH. destruct (Nat.eqb_spec k' k1) as [->|D1]; [|reflexivity].
      rewrite (proj2 (Nat.eqb_neq k1 k)) by congruence. reflexivity.
Qed.
Lemma find_in : forall k v l, NoDup (map fst l) -> In (k, v) l -> find_model k l = Some v.
Proof.
  intros k v l N. induction l as [|[k1 x] l IH]; intros I; [destruct I|]. cbn in N. inversion N as [|? ? N1 N2]; subst. cbn.
  destruct I as [[= -> ->]|I]; [rewrite Nat.eqb_refl; reflexivity|].
  destruct (Nat.eqb_spec k k1) as [->|D]; [|apply IH; assumption].
  exfalso. apply N1. apply in_map_iff. exists (k1, v). auto.
Qed.
Lemma find_none : forall k l, ~ In k (map fst l) -> find_model k l = None.
Proof.
  intros k l. induction l as [|[k1 x] l IH]; intros N; [reflexivity|]. cbn in *.
  destruct (Nat.eqb_spec k k1) as [->|D]; [exfalso; apply N; auto | apply IH; intros K; apply N; auto].
Qed.
Lemma find_update : forall k new l, NoDup (map fst new) ->
  find_model k (update_models new l) = match find_model k new with Some v => Some v | None => find_model k l end.
Proof.
  intros k new. unfold update_models. induction new as [|[k1 x] new IH]; intros l N; [reflexivity|].
  cbn in N. inversion N as [|? ? N1 N2]; subst. cbn [fold_left fst snd]. rewrite (IH _ N2), find_set. cbn.
  destruct (Nat.eqb_spec k k1) as [->|D]; [|reflexivity]. rewrite (find_none _ _ N1). reflexivity.
Qed.

(** Opening a data set, seen through one device model. *)
Definition own_models (d : res dataset) : registry := match d with Ok ds => match ds_devices ds with Some l => l | None => [] end | Err _ => [] end.
Lemma open_find : forall k ds bs reg, NoDup (map fst (own_models (Ok ds))) ->
  find_model k (fst (fst (open_buildings ds bs reg))) =
  match bs with Ok _ :: _ => match find_model k (own_models (Ok ds)) with Some v => Some v | None => find_model k reg end | _ => find_model k reg end.
Proof.
  intros k ds bs. induction bs as [|[h|e] bs IH]; intros reg N; [reflexivity| |reflexivity]. cbn [open_buildings].
  assert (L : find_model k (load_meter_devices ds reg) = match find_model k (own_models (Ok ds)) with Some v => Some v | None => find_model k reg end).
  { unfold load_meter_devices. exact (find_update k (own_models (Ok ds)) reg N). }
  destruct (h_fails h); [exact L|]. specialize (IH (load_meter_devices ds reg) N).
  destruct (open_buildings ds bs (load_meter_devices ds reg)) as [[r ms] e]. cbn [fst] in *. rewrite IH.
  destruct bs as [|[]]; rewrite L; try reflexivity. destruct (find_model k (own_models (Ok ds))); reflexivity.
Qed.
Lemma step_begun : forall k d reg v, proper d -> begun d -> describes d k v ->
  find_model k (fst (fst (open_dataset d reg))) = Some v.
Proof.
  intros k d reg v P (ds & h & bs & -> & B) (ds' & l & [= <-] & L & I). cbn [open_dataset].
  assert (N : NoDup (map fst (own_models (Ok ds)))) by (cbn; rewrite L; exact (P ds l eq_refl L)).
  rewrite (open_find k ds _ reg N), B. cbn in *. rewrite L in *. rewrite (find_in k v l N I). reflexivity.
Qed.
Lemma step_other : forall k d reg, proper d -> (begun d -> forall v, ~ describes d k v) ->
  find_model k (fst (fst (open_dataset d reg))) = find_model k reg.
Proof.
  intros k [ds|e] reg P H; [|reflexivity]. cbn [open_dataset].
  assert (N : NoDup (map fst (own_models (Ok ds)))).
  { cbn. destruct (ds_devices ds) as [l|] eqn:L; [exact (P ds l eq_refl L) | constructor]. }
  rewrite (open_find k ds _ reg N). destruct (ds_buildings ds) as [|[h|e] bs] eqn:B; try reflexivity.
  destruct (find_model k (own_models (Ok ds))) as [v|] eqn:F; [|reflexivity]. exfalso.
  apply (H (ex_intro _ ds (ex_intro _ h (ex_intro _ bs (conj eq_refl B)))) v).
  cbn in F. destruct (ds_devices ds) as [l|] eqn:L; [|discriminate]. exists ds, l. split; [reflexivity|]. split; [exact L|].
  clear - F. induction l as [|[k1 x] l IH]; [discriminate|]. cbn in F. destruct (Nat.eqb_spec k k1) as [->|D]; [left; congruence | right; auto].
Qed.

Lemma process_snoc : forall h d, process (h ++ [d]) = fst (fst (open_dataset d (process h))).
Proof. intros h d. unfold process. rewrite fold_left_app. reflexivity. Qed.
Lemma process_after : forall k after before, Forall proper after ->
  (forall d' v', In d' after -> begun d' -> ~ describes d' k v') -> find_model k (process (before ++ after)) = find_model k (process before).
Proof.
  intros k after before P H. induction after as [|d after IH] using rev_ind; [rewrite app_nil_r; reflexivity|].
  apply Forall_app in P. destruct P as [P1 P2]. inversion P2; subst. rewrite app_assoc, process_snoc, step_other.
  - apply IH; [exact P1|]. intros d' v' D. apply H. apply in_app_iff. auto.
  - assumption.
  - intros B v. apply (H d v); [apply in_app_iff; right; left; reflexivity | exact B].
Qed.
Lemma latest_found : forall h k v, Forall proper h -> latest h k v -> find_model k (process h) = Some v.
Proof.
  intros h k v P (b & d & a & -> & B & D & H). apply Forall_app in P. destruct P as [_ P]. inversion P as [|? ? P1 P2]; subst.
  replace (b ++ d :: a) with ((b ++ [d]) ++ a) by (rewrite <- app_assoc; reflexivity).
  rewrite (process_after k a _ P2 H), process_snoc. apply step_begun; assumption.
Qed.
Lemma nobody_found : forall h k, Forall proper h -> (forall d v, In d h -> begun d -> ~ describes d k v) -> find_model k (process h) = None.
Proof. intros h k P H. exact (process_after k h [] P H). Qed.

(** A device model described by some begun data set is described by a last one. *)
Lemma begun_dec : forall d, begun d \/ ~ begun d.
Proof.
  intros [ds|e]; [|right; intros (ds & h & bs & E & _); discriminate].
  destruct (ds_buildings ds) as [|[h|e] bs] eqn:B; [right | left; exists ds, h, bs; auto | right];
    intros (ds' & h' & bs' & [= <-] & E); congruence.
Qed.
Lemma describes_dec : forall d k, (exists v, describes d k v) \/ forall v, ~ describes d k v.
Proof.
  intros [ds|e] k; [|right; intros v (ds & l & E & _); discriminate].
  destruct (ds_devices ds) as [l|] eqn:L; [|right; intros v (ds' & l & [= <-] & E & _); congruence].
  destruct (in_dec Nat.eq_dec k (map fst l)) as [I|I].
  - left. apply in_map_iff in I. destruct I as ([k' v] & E & I). cbn in E. subst. exists v, ds, l. auto.
  - right. intros v (ds' & l' & [= <-] & E & J). rewrite L in E. injection E as <-. apply I. apply in_map_iff. exists (k, v). auto.
Qed.
Lemma latest_exists : forall h k d v, In d h -> begun d -> describes d k v -> exists v', latest h k v' /\ exists d', In d' h /\ begun d' /\ describes d' k v'.
Proof.
  intros h k d v. induction h as [|d1 h IH] using rev_ind; intros I B D; [destruct I|].
  assert (Q : (begun d1 /\ exists v1, describes d1 k v1) \/ (begun d1 -> forall v1, ~ describes d1 k v1)).
  { destruct (begun_dec d1) as [B1|B1]; [|right; tauto]. destruct (describes_dec d1 k) as [X|X]; auto. }
  destruct Q as [[B1 [v1 D1]]|Q].
  - exists v1. split; [|exists d1; split; [apply in_app_iff; right; left; reflexivity | auto]].
    exists h, d1, []. split; [reflexivity|]. split; [exact B1|]. split; [exact D1|]. intros d' v' [].
  - apply in_app_iff in I. destruct I as [I|[<-|[]]]; [|exfalso; exact (Q B v D)].
    destruct (IH I B D) as (v' & (b & x & a & E & X1 & X2 & X3) & d' & Y1 & Y2). exists v'. split.
    + exists b, x, (a ++ [d1]). split; [rewrite E, <- app_assoc; reflexivity|]. split; [exact X1|]. split; [exact X2|].
      intros d2 v2 I2 B2. apply in_app_iff in I2. destruct I2 as [I2|[<-|[]]]; [apply X3; assumption | apply Q; exact B2].
    + exists d'. split; [apply in_app_iff; auto | exact Y2].
Qed.

Lemma same_device : forall m r1 r2, device_of r1 m = device_of r2 m -> same_answers m r1 r2.
Proof.
  intros m r1 r2 E. unfold same_answers, sample_period, available_columns, fill_limit, good_sections. 
  assert (S1 : sample_period r1 m = sample_period r2 m) by (unfold sample_period; rewrite E; reflexivity).
  rewrite E. repeat split. intros period. rewrite S1. reflexivity.
Qed.

(** * The theorems *)
Lemma device_latest : forall h m k, Forall proper h -> m_model m = Some k ->
  (forall v, latest h k v -> device_of (process h) m = Ok v) /\
  ((forall d v, In d h -> begun d -> ~ describes d k v) -> device_of (process h) m = Err KeyError).
Proof.
  intros h m k P M. unfold device_of. rewrite M. split.
  - intros v L. rewrite (latest_found h k v P L). reflexivity.
  - intros H. rewrite (nobody_found h k P H). reflexivity.
Qed.

Lemma own_answers : forall h ds l m, Forall proper h -> In (Ok ds) h -> begun (Ok ds) -> ds_devices ds = Some l ->
  (forall k, m_model m = Some k -> exists v, In (k, v) l /\ forall d' v', In d' h -> begun d' -> describes d' k v' -> v' = v) ->
  same_answers m (process h) l.
Proof.
  intros h ds l m P I B L H. apply same_device. unfold device_of. destruct (m_model m) as [k|]; [|reflexivity].
  destruct (H k eq_refl) as (v & V & U). assert (D : describes (Ok ds) k v) by (exists ds, l; auto).
  destruct (latest_exists h k (Ok ds) v I B D) as (v' & Lt & d' & X1 & X2 & X3).
  rewrite (U d' v' X1 X2 X3) in *. rewrite (latest_found h k v P Lt).
  rewrite Forall_forall in P. rewrite (find_in k v l (P (Ok ds) I ds l eq_refl L) V). reflexivity.
Qed.

Lemma others_answers : forall h ds other l' m k v', Forall proper h -> proper (Ok other) -> begun (Ok other) -> ds_devices other = Some l' ->
  m_model m = Some k -> In (k, v') l' -> same_answers m (process (h ++ [Ok ds] ++ [Ok other])) l'.
Proof.
  intros h ds other l' m k v' P P' B L M V. apply same_device. unfold device_of. rewrite M.
  rewrite app_assoc, process_snoc, (step_begun k (Ok other) _ v' P' B); [|exists other, l'; auto].
  rewrite (find_in k v' l' (P' other l' eq_refl L) V). reflexivity.
Qed.

Lemma limit_least mx p : 0 < p -> 0 <= mx -> least_cover mx p (ffill_limit mx p).
Proof.
  intros P M. unfold least_cover, ffill_limit. assert (X := Z.div_mod (- mx) p ltac:(lia)). assert (Y := Z.mod_pos_bound (- mx) p P).
  assert (0 <= - (- mx / p)) by (assert (- mx / p <= 0) by (apply Z.div_le_upper_bound; lia); lia).
  rewrite Z2Nat.id by lia. nia.
Qed.

Lemma answers_of_latest : forall h m k sp mx ms o, Forall proper h -> m_model m = Some k -> latest h k (mkDevice (Some sp) (Some mx) (Some ms) o) ->
  sample_period (process h) m = Ok (Some sp) /\ available_columns (process h) m = Ok ms /\
  (forall chunks, good_sections (process h) m chunks = good_sections_of mx chunks) /\
  (0 <= mx -> forall asked p, (asked = Some p \/ asked = None /\ p = sp) -> 0 < p ->
     exists n, fill_limit (process h) m asked = Ok n /\ least_cover mx p n).
Proof.
  intros h m k sp mx ms o P M L. pose proof (proj1 (device_latest h m k P M) _ L) as D.
  assert (SP : sample_period (process h) m = Ok (Some sp)) by (unfold sample_period; rewrite D; destruct o; reflexivity).
  split; [exact SP|]. split; [unfold available_columns; rewrite D; reflexivity|].
  split; [intros chunks; unfold good_sections; rewrite D; reflexivity|].
  intros N asked p A Hp. exists (ffill_limit mx p). split; [|apply limit_least; assumption].
  unfold fill_limit. rewrite SP, D. cbn [bind item d_max_sample_period].
  destruct A as [-> | [-> ->]]; cbn [bind]; replace (_ =? 0) with false by lia; reflexivity.
Qed.

Lemma answers_without_device : forall h m, m_model m = None ->
  sample_period (process h) m = Ok None /\ available_columns (process h) m = Err KeyError /\
  (forall chunks, good_sections (process h) m chunks = Err KeyError) /\
  (forall asked, fill_limit (process h) m asked = Err KeyError).
Proof.
  intros h m M. unfold sample_period, available_columns, good_sections, fill_limit, sample_period, device_of. rewrite M. cbn. repeat split.
Qed.
