From Coq Require Import QArith Lia Lqa Sorted.
From Verif Require Import Base TopModel ResampleModel MetricsModel MetricsSpec.
Open Scope Z_scope.

Definition sorted_times {A} (c : list (Z * A)) : Prop := StronglySorted (fun x y => fst x <= fst y) c.

Lemma bin_spec o p t b : 0 < p -> (bin o p t = b <-> (exists k, b = o + k * p) /\ b <= t < b + p).
Proof.
  intros P. unfold bin. split.
  - intros <-. split; [exists ((t - o) / p); reflexivity|]. assert (X := Z.div_mod (t - o) p ltac:(lia)). assert (Y := Z.mod_pos_bound (t - o) p P). nia.
  - intros [[k ->] H]. assert ((t - o) / p = k); [|subst k; reflexivity]. symmetry. apply (Z.div_unique_pos _ _ _ (t - o - k * p)); lia.
Qed.
Lemma bin_mono o p t t' : 0 < p -> t <= t' -> bin o p t <= bin o p t'.
Proof. intros P H. unfold bin. assert (X := Z.div_le_mono (t - o) (t' - o) p P ltac:(lia)). nia. Qed.
Lemma grid_in p n : forall s b, In b (grid s p n) <-> exists k, (k < n)%nat /\ b = s + Z.of_nat k * p.
Proof.
  induction n as [|n IH]; intros s b; cbn [grid In]; [split; [intros []|intros (k & H & _); lia]|]. rewrite IH. split.
  - intros [<-|(k & H & ->)]; [exists 0%nat; lia|]. exists (S k). lia.
  - intros ([|k] & H & ->); [left; lia|right]. exists k. lia.
Qed.
Lemma in_bin_window o p b c : 0 < p -> (exists k, b = o + k * p) -> valid_of (map snd (in_bin o p b c)) = window_values c b p.
Proof.
  intros P K. unfold in_bin, window_values. induction c as [|x c IH]; [reflexivity|]. cbn [filter flat_map map].
  destruct (Z.eqb_spec (bin o p (fst x)) b) as [E|E].
  - apply bin_spec in E; [|exact P]. destruct E as [_ E]. assert (X : ((b <=? fst x) && (fst x <? b + p))%bool = true) by lia. rewrite X. cbn [map valid_of flat_map]. fold (valid_of (map snd (filter (fun x => bin o p (fst x) =? b) c))). rewrite IH. reflexivity.
  - assert (X : ((b <=? fst x) && (fst x <? b + p))%bool = false). { destruct ((b <=? fst x) && (fst x <? b + p))%bool eqn:X; [|reflexivity]. exfalso. apply E. apply bin_spec; [exact P|]. split; [exact K|lia]. } rewrite X. exact IH.
Qed.
Lemma last_time {A} (c : list (Z * A)) : forall d x, sorted_times c -> In x c -> fst x <= last (map fst c) d.
Proof.
  induction c as [|y c IH]; intros d x S H; [destruct H|]. inversion_clear S as [|y' c' S' F]. destruct c as [|z c]; [destruct H as [->|[]]; cbn; lia|]. change (last (map fst (y :: z :: c)) d) with (last (map fst (z :: c)) d). destruct H as [->|H].
  - rewrite Forall_forall in F. assert (A1 := F z (or_introl eq_refl)). assert (A2 := IH d z S' (or_introl eq_refl)). lia.
  - apply IH; assumption.
Qed.
Lemma last_in {A} (c : list (Z * A)) d : c <> [] -> exists x, In x c /\ last (map fst c) d = fst x.
Proof.
  induction c as [|y c IH]; [congruence|]. intros _. destruct c as [|z c]; [exists y; cbn; auto|]. destruct IH as (x & Hx & E); [discriminate|]. exists x. split; [right; exact Hx|exact E].
Qed.

(** The rows of a resampled series. *)
Lemma resample_in midnight p t0 v0 c b v : 0 < p -> sorted_times ((t0, v0) :: c) ->
  (In (b, v) (resample_mean midnight p ((t0, v0) :: c)) <->
   (exists k, b = midnight t0 + k * p) /\ bin (midnight t0) p t0 <= b <= bin (midnight t0) p (last (map fst ((t0, v0) :: c)) t0) /\ v = mean_of (window_values ((t0, v0) :: c) b p)).
Proof.
  intros P S. set (l := (t0, v0) :: c) in *. set (o := midnight t0). assert (EQ : resample_mean midnight p l = map (fun b => (b, mean_of (valid_of (map snd (in_bin o p b l))))) (grid (bin o p t0) p (Datatypes.S (Z.to_nat ((bin o p (last (map fst l) t0) - bin o p t0) / p))))) by reflexivity. rewrite EQ. clear EQ.
  assert (LE : bin o p t0 <= bin o p (last (map fst l) t0)) by (apply bin_mono; [exact P|apply (last_time l t0 (t0, v0) S (or_introl eq_refl))]).
  destruct (proj1 (bin_spec o p t0 _ P) eq_refl) as [[k0 K0] _]. destruct (proj1 (bin_spec o p (last (map fst l) t0) _ P) eq_refl) as [[k1 K1] _].
  set (f := bin o p t0) in *. set (g := bin o p (last (map fst l) t0)) in *. assert (D : (g - f) / p = k1 - k0) by (replace (g - f) with ((k1 - k0) * p) by lia; apply Z.div_mul; lia).
  rewrite in_map_iff. split.
  - intros (b' & E & H). apply pair_equal_spec in E. destruct E as [-> <-]. apply grid_in in H. destruct H as (k & Hk & ->). rewrite D in Hk. assert (K : exists j, f + Z.of_nat k * p = o + j * p) by (exists (k0 + Z.of_nat k); lia). split; [exact K|]. split; [nia|]. rewrite (in_bin_window o p _ l P K). reflexivity.
  - intros (K & R & ->). exists b. rewrite (in_bin_window o p b l P K). split; [reflexivity|]. apply grid_in. destruct K as [k ->]. exists (Z.to_nat (k - k0)). assert (k0 <= k) by nia. assert (k <= k1) by nia. rewrite D. split; [lia|]. rewrite Z2Nat.id by lia. rewrite K0. ring.
Qed.
Lemma window_range (c : samples) o p t : 0 < p -> (exists k, t = o + k * p) -> sorted_times c -> window_values c t p <> [] ->
  match c with [] => False | (t0, _) :: _ => bin o p t0 <= t <= bin o p (last (map fst c) t0) end.
Proof.
  intros P K S N. unfold window_values in N. assert (X : exists x, In x c /\ t <= fst x < t + p).
  { clear S. induction c as [|x c IH]; [cbn in N; congruence|]. cbn [flat_map] in N. destruct ((t <=? fst x) && (fst x <? t + p))%bool eqn:E; [exists x; split; [left; reflexivity|lia]|]. destruct (IH N) as (y & Hy & R). exists y. split; [right; exact Hy|exact R]. }
  destruct X as (x & Hx & R). destruct c as [|[t0 v0] c]; [destruct Hx|]. assert (E : bin o p (fst x) = t) by (apply bin_spec; auto). rewrite <- E. split; apply bin_mono; try exact P.
  - destruct Hx as [<-|Hx]; [cbn; lia|]. inversion_clear S as [|y c' S' F]. rewrite Forall_forall in F. exact (F x Hx).
  - apply (last_time _ t0 x S Hx).
Qed.
Lemma mean_of_some l m : mean_of l = Some m -> l <> [] /\ (m == qsum l / inject_Z (Z.of_nat (length l)))%Q.
Proof. unfold mean_of. destruct l; [discriminate|]. intros [= <-]. split; [discriminate|reflexivity]. Qed.
Lemma resample_mean_row midnight p c t m : 0 < p -> sorted_times c ->
  (In (t, Some m) (resample_mean midnight p c) -> match c with [] => False | x :: _ => exists k, t = midnight (fst x) + k * p end /\ window_mean c t p m).
Proof.
  intros P S H. destruct c as [|[t0 v0] c]; [destruct H|]. apply (resample_in midnight p t0 v0 c t (Some m) P S) in H. destruct H as (K & _ & E). split; [exact K|]. symmetry in E. apply mean_of_some in E. exact E.
Qed.
Lemma resample_mean_conv midnight p c t m : 0 < p -> sorted_times c -> match c with [] => False | x :: _ => exists k, t = midnight (fst x) + k * p end -> window_mean c t p m ->
  exists m', In (t, Some m') (resample_mean midnight p c) /\ (m' == m)%Q.
Proof.
  intros P S K [N E]. destruct c as [|[t0 v0] c]; [destruct K|]. cbn [fst] in K. exists (qsum (window_values ((t0, v0) :: c) t p) / inject_Z (Z.of_nat (length (window_values ((t0, v0) :: c) t p))))%Q. split; [|symmetry; exact E].
  apply (resample_in midnight p t0 v0 c t _ P S). split; [exact K|]. split; [exact (window_range _ (midnight t0) p t P K S N)|]. unfold mean_of. destruct (window_values ((t0, v0) :: c) t p); [congruence|reflexivity].
Qed.
Lemma resample_unique midnight p c t v v' : 0 < p -> sorted_times c -> In (t, v) (resample_mean midnight p c) -> In (t, v') (resample_mean midnight p c) -> v = v'.
Proof.
  intros P S H H'. destruct c as [|[t0 v0] c]; [destruct H|]. apply (resample_in midnight p t0 v0 c t _ P S) in H, H'. destruct H as (_ & _ & ->), H' as (_ & _ & ->). reflexivity.
Qed.

(** The table of two series. *)
Lemma value_at_in s t v : (forall v', In (t, v') s -> v' = v) -> In (t, v) s -> value_at s t = v.
Proof.
  intros U H. unfold value_at. destruct (find (fun x => fst x =? t) s) as [[t' v']|] eqn:E.
  - apply find_some in E. cbn in E. destruct E as [E F]. apply Z.eqb_eq in F. subst t'. cbn. apply U. exact E.
  - exfalso. assert (X := find_none _ _ E _ H). cbn in X. rewrite Z.eqb_refl in X. discriminate.
Qed.
Lemma value_at_some s t b : value_at s t = Some b -> In (t, Some b) s.
Proof.
  unfold value_at. destruct (find (fun x => fst x =? t) s) as [[t' v']|] eqn:E; [|discriminate]. apply find_some in E. cbn in E. destruct E as [E F]. apply Z.eqb_eq in F. subst t'. cbn. intros ->. exact E.
Qed.
Lemma join_both m s a b : (forall t v v', In (t, v) s -> In (t, v') s -> v = v') -> (In (a, b) (both (join m s)) <-> exists t, In (t, Some a) m /\ In (t, Some b) s).
Proof.
  intros U. unfold both, join. rewrite flat_map_app, in_app_iff. assert (N : forall l : list (Z * option Q), In (a, b) (flat_map (fun r : row => match r with (Some a, Some b) => [(a, b)] | _ => [] end) (map (fun x => (None, snd x)) l)) <-> False). { induction l as [|x l IH]; cbn; tauto. }
  rewrite N. split.
  - intros [H|[]]. apply in_flat_map in H. destruct H as (r & Hr & I). apply in_map_iff in Hr. destruct Hr as ((t & v) & <- & Hm). cbn in I. destruct v as [a'|]; [|destruct I]. destruct (value_at s t) as [b'|] eqn:E; [|destruct I]. destruct I as [I|[]]. injection I as -> ->. exists t. split; [exact Hm|]. apply value_at_some. exact E.
  - intros (t & Hm & Hs). left. apply in_flat_map. exists (Some a, value_at s t). rewrite (value_at_in s t (Some b)) by (eauto; intros; eapply U; eassumption). split; [|left; reflexivity]. apply in_map_iff. exists (t, Some a). split; [cbn; f_equal; apply value_at_in; [intros; eapply U; eassumption|exact Hs]|exact Hm].
Qed.
Definition origin_of (midnight : Z -> Z) (c : samples) (o : Z) : Prop := match c with [] => False | x :: _ => midnight (fst x) = o end.
Lemma join_thm midnight p o c s : 0 < p -> sorted_times c -> sorted_times s -> origin_of midnight c o -> origin_of midnight s o ->
  (forall a b, In (a, b) (both (join (resample_mean midnight p c) (resample_mean midnight p s))) -> exists k, window_mean c (o + k * p) p a /\ window_mean s (o + k * p) p b) /\
  (forall k a b, window_mean c (o + k * p) p a -> window_mean s (o + k * p) p b -> exists a' b', In (a', b') (both (join (resample_mean midnight p c) (resample_mean midnight p s))) /\ (a' == a)%Q /\ (b' == b)%Q).
Proof.
  intros P SC SS OC OS. assert (U := fun t v v' => resample_unique midnight p s t v v' P SS). split.
  - intros a b H. apply (join_both _ _ a b U) in H. destruct H as (t & HC & HS). apply (resample_mean_row midnight p c t a P SC) in HC. apply (resample_mean_row midnight p s t b P SS) in HS. destruct HC as [KC MC], HS as [_ MS]. destruct c as [|x c]; [destruct KC|]. destruct KC as [k ->]. cbn in OC. rewrite OC in *. eauto.
  - intros k a b MC MS. destruct (resample_mean_conv midnight p c (o + k * p) a P SC) as (a' & IA & EA); [destruct c as [|x c]; [exact OC|cbn in OC; exists k; rewrite OC; reflexivity]|exact MC|]. destruct (resample_mean_conv midnight p s (o + k * p) b P SS) as (b' & IB & EB); [destruct s as [|x s]; [exact OS|cbn in OS; exists k; rewrite OS; reflexivity]|exact MS|].
    exists a', b'. split; [|auto]. apply (join_both _ _ a' b' U). eauto.
Qed.

Open Scope Q_scope.
Lemma f1_off : exists gt pred f, same gt pred /\ f1score gt pred = Ok f /\ f == 0.
Proof. exists [0], [0], 0. split; [constructor; [reflexivity|constructor]|]. split; reflexivity. Qed.
Lemma relative_negative : exists gt pred e, relative_error gt pred = Ok (Fin e) /\ e < 0.
Proof. exists [0], [-(2)]. eexists. split; reflexivity. Qed.
Lemma nep_negative : exists gt pred e, nep gt pred = Ok (Fin e) /\ e < 0.
Proof. exists [-(1)], [0]. eexists. split; reflexivity. Qed.
Lemma nothing_compared midnight p slave master : (forall a b, slave a b = Some []) ->
  rms_error (fst (align_two_meters midnight p slave master)) = Err ZeroDivisionError /\ mean_normalized_error (fst (align_two_meters midnight p slave master)) = Err ZeroDivisionError.
Proof.
  intros H. assert (E : fst (align_two_meters midnight p slave master) = []). { induction master as [|c master IH]; [reflexivity|]. cbn [align_two_meters]. destruct c as [|[t0 v0] [|y c]]; try reflexivity. rewrite H. exact IH. } rewrite E. split; reflexivity.
Qed.
Lemma f1_chunks : exists cs cs', concat cs = concat cs' /\ Forall (fun p => fst p == snd p) (both (concat cs)) /\
  (forall nan, exists f, f1_score nan cs = Ok (Fin f) /\ f == 1) /\ (forall nan, exists f, f1_score nan cs' = Ok (Fin f) /\ f == 1 / 2).
Proof.
  exists [[(Some 1, Some 1); (Some 0, Some 0)]], [[(Some 1, Some 1)]; [(Some 0, Some 0)]]. split; [reflexivity|]. split; [constructor; [reflexivity|constructor; [reflexivity|constructor]]|]. split; intros nan; eexists; split; reflexivity.
Qed.
Lemma fraction_of_nothing : exists pred gt f, proper gt /\ map e_id pred = map e_id gt /\ total_energy pred == 0 /\
  fraction_energy_assigned_correctly pred gt = Ok (Fin f) /\ f == 1.
Proof.
  exists [mkEmeter 1 [Some 0]; mkEmeter 2 [Some 0]], [mkEmeter 1 [Some 3]; mkEmeter 2 [Some 1]]. eexists. split; [|repeat split; reflexivity].
  split; [repeat constructor; cbn; intuition congruence|]. split; [|reflexivity]. intros m [<-|[<-|[]]]; eexists; (split; [reflexivity|discriminate]).
Qed.
Lemma align_all midnight p slave master : Forall (fun c => (2 <= length c)%nat) master ->
  (forall c a b, In c master -> slave a b <> None /\ slave a b <> Some []) ->
  exists tables, align_two_meters midnight p slave master = (tables, None) /\ length tables = length master.
Proof.
  induction master as [|c master IH]; intros F H; [exists []; split; reflexivity|]. inversion_clear F as [|c' l L F']. destruct (IH F') as (ts & E & EL); [intros c' a b Hc; apply (H c a b); left; reflexivity|].
  destruct c as [|[t0 v0] [|y c]]; cbn [length] in L; try lia. cbn [align_two_meters]. destruct (H _ t0 (last (map fst ((t0, v0) :: y :: c)) t0) (or_introl eq_refl)) as [A B]. destruct (slave t0 (last (map fst ((t0, v0) :: y :: c)) t0)) as [[|s0 s]|]; try congruence. rewrite E. eexists. split; [reflexivity|]. cbn. rewrite EL. reflexivity.
Qed.
Lemma align_short : exists slave x c, align_two_meters utc_midnight 6 slave [c] = ([[(Some (10 / 2), Some (10 / 2))]], None) /\
  align_two_meters utc_midnight 6 slave [[x]; c] = ([], None).
Proof. exists (fun _ _ => Some [(12%Z, Some 5); (15%Z, Some 5)]), (0%Z, Some 5), [(12%Z, Some 5); (15%Z, Some 5)]. split; reflexivity. Qed.
Lemma align_midnight : exists p c s, (0 < p)%Z /\ sorted_times c /\ sorted_times s /\ s = tl c /\ s <> [] /\ Forall (fun x => snd x <> None) c /\
  both (join (resample_mean utc_midnight p c) (resample_mean utc_midnight p s)) = [].
Proof.
  exists 7%Z, [(86399%Z, Some 5); (86400%Z, Some 5); (86401%Z, Some 5); (86410%Z, Some 5)], [(86400%Z, Some 5); (86401%Z, Some 5); (86410%Z, Some 5)]. repeat (split; [repeat constructor; cbn; (lia || discriminate)|]). reflexivity.
Qed.
