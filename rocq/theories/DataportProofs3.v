From Coq Require Import Lia Permutation Sorted.
From Verif Require Import Base DataportModel DataportSpec DataportProofs DataportProofs2.
Import List. Open Scope Z_scope.

(** ** The order of the files *)
Lemma insert_nat_perm x l : Permutation (x :: l) (insert_nat x l).
Proof. induction l as [|y l IH]; cbn; [reflexivity|]. destruct (Nat.leb x y); [reflexivity|]. rewrite perm_swap. now constructor. Qed.
Lemma sort_names_perm l : Permutation l (sort_names l).
Proof. induction l as [|x l IH]; [constructor|]. cbn. rewrite <- insert_nat_perm. now constructor. Qed.
Lemma insert_nat_sorted x l : StronglySorted le l -> StronglySorted le (insert_nat x l).
Proof.
  induction 1 as [|y l H IH HF]; cbn; [repeat constructor|]. destruct (Nat.leb_spec x y) as [L|L].
  - constructor; [constructor; assumption|]. constructor; [exact L|]. rewrite Forall_forall in *. intros z Hz. specialize (HF z Hz). lia.
  - constructor; [exact IH|]. rewrite Forall_forall in *. intros z Hz. apply (Permutation_in _ (Permutation_sym (insert_nat_perm x l))) in Hz. destruct Hz as [<-|Hz]; [lia|auto].
Qed.
Lemma sort_names_sorted l : StronglySorted le (sort_names l).
Proof. induction l as [|x l IH]; [constructor|]. cbn. now apply insert_nat_sorted. Qed.
Lemma sorted_unique l : forall l', Permutation l l' -> StronglySorted le l -> StronglySorted le l' -> l = l'.
Proof.
  induction l as [|x l IH]; intros l' HP H1 H2.
  - apply Permutation_nil in HP. now subst.
  - destruct l' as [|y l']; [apply Permutation_sym, Permutation_nil in HP; discriminate|]. apply StronglySorted_inv in H1, H2. destruct H1 as [H1 F1], H2 as [H2 F2]. rewrite Forall_forall in *.
    assert (x = y). { assert (A : In x (y :: l')) by (eapply Permutation_in; [exact HP|now left]). assert (B : In y (x :: l)) by (eapply Permutation_in; [apply Permutation_sym; exact HP|now left]).
      destruct A as [A|A]; [auto|]. destruct B as [B|B]; [auto|]. specialize (F1 _ B). specialize (F2 _ A). lia. }
    subst y. f_equal. apply IH; auto. eapply Permutation_cons_inv. exact HP.
Qed.
Lemma sort_names_is names ns : Permutation names ns -> StronglySorted le ns -> sort_names names = ns.
Proof.
  intros HP HS. apply sorted_unique; [|apply sort_names_sorted|exact HS]. eapply Permutation_trans; [apply Permutation_sym, sort_names_perm|exact HP].
Qed.
Theorem order_ok typ fs names names' ids : Permutation names names' -> convert typ fs names ids = convert typ fs names' ids.
Proof. intros H. unfold convert. rewrite (sort_names_is names (sort_names names')); [reflexivity| |apply sort_names_sorted]. eapply Permutation_trans; [exact H|apply sort_names_perm]. Qed.

(** ** The whole conversion *)
Lemma cinv_start typ fs ns : CInv typ fs ns (mkConv [] [] []) [].
Proof. split; [intros n bs H; discriminate|]. split; [reflexivity|]. split; [intros j b md H; destruct j; discriminate|]. reflexivity. Qed.
Lemma convert_inv typ fs names ids : NoDup ids ->
  if existsb (bad fs (sort_names names)) ids then convert typ fs names ids = Err KeyError
  else exists s, convert typ fs names ids = Ok (c_tables s, c_metas s) /\ CInv typ fs (sort_names names) s ids.
Proof.
  intros ND. pose proof (buildings_ok typ fs (sort_names names) ids (mkConv [] [] []) [] (cinv_start _ _ _) ND) as K. unfold convert.
  destruct (existsb _ ids); [rewrite K; reflexivity|]. destruct K as (s & E & K). rewrite E. exists s. split; [reflexivity|exact K].
Qed.
Lemma convert_get typ fs names ids t metas : NoDup ids -> convert typ fs names ids = Ok (t, metas) ->
  (forall b, In b ids -> forall n, In n names -> file_bad (fs n) b = false) /\ exists s, t = c_tables s /\ metas = c_metas s /\ CInv typ fs (sort_names names) s ids.
Proof.
  intros ND E. pose proof (convert_inv typ fs names ids ND) as K. destruct (existsb _ ids) eqn:EB; [rewrite K in E; discriminate|]. destruct K as (s & E' & K). rewrite E' in E. injection E as <- <-.
  split; [|eauto]. intros b Hb n Hn. destruct (file_bad (fs n) b) eqn:F; [|reflexivity]. rewrite <- EB. symmetry. apply existsb_exists. exists b. split; [exact Hb|].
  unfold bad. apply existsb_exists. exists n. split; [|exact F]. eapply Permutation_in; [apply sort_names_perm|exact Hn].
Qed.
Lemma frames_spec fs names b Fs : (forall n, In n names -> file_bad (fs n) b = false) -> Forall2 (fun n f => extracts (fs n) b f) (sort_names names) Fs -> Fs = frames fs (sort_names names) b.
Proof.
  intros HB H. assert (HB' : forall n, In n (sort_names names) -> file_bad (fs n) b = false) by (intros n Hn; apply HB; eapply Permutation_in; [apply Permutation_sym, sort_names_perm|exact Hn]).
  clear HB. unfold frames. induction H as [|n f l Fs H1 H2 IH]; [reflexivity|]. cbn. f_equal; [|apply IH; intros; apply HB'; now right]. apply extracts_eff in H1; [exact H1|]. apply HB'. now left.
Qed.
Lemma data_iff fs names b : (forall n, In n names -> file_bad (fs n) b = false) -> data fs (sort_names names) b = true <-> exists n f, In n names /\ yields_frame (fs n) b f.
Proof.
  intros HB. unfold data. rewrite negb_true_iff, <- not_true_iff_false, forallb_forall. unfold frames. split.
  - intros H. assert (K : existsb (fun n => negb (is_empty (file_frame (fs n) b))) names = true).
    { destruct (existsb _ names) eqn:E; [reflexivity|]. exfalso. apply H. intros f Hf. apply in_map_iff in Hf. destruct Hf as (n & <- & Hn).
      apply (Permutation_in _ (Permutation_sym (sort_names_perm names))) in Hn. unfold eff. destruct (is_empty (file_frame (fs n) b)) eqn:E2; [reflexivity|]. exfalso.
      rewrite <- not_true_iff_false in E. apply E. apply existsb_exists. exists n. rewrite E2. auto. }
    apply existsb_exists in K. destruct K as (n & Hn & E). apply negb_true_iff in E. exists n, (file_frame (fs n) b). split; [exact Hn|]. exists (false || file_solar (fs n) b). rewrite extract_eq, (HB n Hn). auto.
  - intros (n & f & Hn & (pv & E & EE)) H. rewrite extract_eq, (HB n Hn) in E. injection E as <- _. specialize (H (eff (fs n) b)). unfold eff in H. rewrite EE in H. rewrite H in EE; [discriminate|].
    apply in_map_iff. exists n. rewrite EE. split; [reflexivity|]. eapply Permutation_in; [apply sort_names_perm|exact Hn].
Qed.

Theorem tables_ok typ fs names ns ids t metas : Permutation names ns -> StronglySorted le ns -> NoDup ids -> convert typ fs names ids = Ok (t, metas) ->
  (forall j b md Fs, nth_error metas j = Some (b, md) -> Forall2 (fun n f => extracts (fs n) b f) ns Fs -> forall m, table t (S j, m) = concat (map (fun f => column_rows f m) Fs)) /\
  (forall i m, table t (i, m) <> [] -> (1 <= i <= length metas)%nat).
Proof.
  intros HP HS ND E. rewrite <- (sort_names_is _ _ HP HS). destruct (convert_get _ _ _ _ _ _ ND E) as (HB & s & -> & -> & (_ & HK & HM & HT)). split.
  - intros j b md Fs H HF m. destruct (HM j b md H) as (_ & _ & K). rewrite (frames_spec fs names b Fs); [apply K| |exact HF].
    apply HB. assert (In b (map fst (c_metas s))) by (apply nth_error_In, (in_map fst) in H; exact H). rewrite HK in H0. apply filter_In in H0. tauto.
  - intros i m H. destruct (Nat.eq_dec i 0) as [Z|Z]; [elim H; apply HT; now left|]. destruct (Nat.le_gt_cases i (length (c_metas s))); [lia|]. elim H. apply HT. now right.
Qed.
Theorem buildings_list typ fs names ids t metas P : NoDup ids -> convert typ fs names ids = Ok (t, metas) ->
  (forall b, P b = true <-> exists n f, In n names /\ yields_frame (fs n) b f) -> map fst metas = filter P ids.
Proof.
  intros ND E H. destruct (convert_get _ _ _ _ _ _ ND E) as (HB & s & -> & -> & (_ & HK & _ & _)). rewrite HK. apply filter_ext_in. intros b Hb.
  destruct (data fs (sort_names names) b) eqn:E1, (P b) eqn:E2; try reflexivity.
  - apply (data_iff fs names b (HB b Hb)) in E1. apply H in E1. congruence.
  - apply H in E2. apply (data_iff fs names b (HB b Hb)) in E2. congruence.
Qed.
Lemma numbered_unique apps : numbered apps -> NoDup (map (fun a => (p_type a, p_instance a)) apps).
Proof.
  intros H. induction apps as [|a apps IH] using rev_ind; [constructor|].
  assert (H' : numbered apps). { intros pre x post K. apply (H pre x (post ++ [a])). rewrite K, <- app_assoc. reflexivity. }
  rewrite map_app. cbn [map]. apply NoDup_rev in IH; [|exact H']. rewrite <- (rev_involutive (map _ apps ++ _)). apply NoDup_rev. rewrite rev_app_distr. cbn. constructor; [|exact IH].
  rewrite <- in_rev. intros K. apply in_map_iff in K. destruct K as (x & E & Hx). injection E as E1 E2. pose proof (H apps a [] eq_refl) as E3.
  apply in_split in Hx. destruct Hx as (l1 & l2 & ->). pose proof (H' l1 x l2 eq_refl) as E4. rewrite filter_app, app_length in E3. cbn [filter] in E3. rewrite E1, Nat.eqb_refl in *. cbn [length] in E3. lia.
Qed.
Lemma solar_chunks fs names b : pv_of fs (sort_names names) b = true <-> exists n ch, In n names /\ In ch (f_chunks (fs n)) /\ with_solar (f_header (fs n)) (of_building b ch).
Proof.
  unfold pv_of, file_solar, solarb. rewrite existsb_exists. split.
  - intros (n & Hn & H). apply existsb_exists in H. destruct H as (ch & Hc & H). exists n, ch. split; [eapply Permutation_in; [apply Permutation_sym, sort_names_perm|exact Hn]|]. split; [exact Hc|]. now apply solar_iff.
  - intros (n & ch & Hn & Hc & H). exists n. split; [eapply Permutation_in; [apply sort_names_perm|exact Hn]|]. apply existsb_exists. exists ch. split; [exact Hc|]. now apply solar_iff.
Qed.
Theorem metadata_ok typ fs names ns ids t metas : Permutation names ns -> StronglySorted le ns -> NoDup ids -> convert typ fs names ids = Ok (t, metas) ->
  forall j b md Fs, nth_error metas j = Some (b, md) -> Forall2 (fun n f => extracts (fs n) b f) ns Fs ->
  describes typ (S j) Fs md /\ NoDup (map (fun a => (p_type a, p_instance a)) (m_apps md)) /\
  (m_pv md = true <-> exists n ch, In n names /\ In ch (f_chunks (fs n)) /\ with_solar (f_header (fs n)) (of_building b ch)).
Proof.
  intros HP HS ND E. rewrite <- (sort_names_is _ _ HP HS). destruct (convert_get _ _ _ _ _ _ ND E) as (HB & s & -> & -> & (_ & HK & HM & HT)).
  intros j b md Fs H HF. destruct (HM j b md H) as (D & V & _). rewrite (frames_spec fs names b Fs); [| |exact HF].
  - split; [exact D|]. split; [apply numbered_unique; apply D|]. rewrite V. apply solar_chunks.
  - apply HB. assert (In b (map fst (c_metas s))) by (apply nth_error_In, (in_map fst) in H; exact H). rewrite HK in H0. apply filter_In in H0. tauto.
Qed.
Theorem errors_ok typ fs names ids : NoDup ids ->
  (forall e, convert typ fs names ids = Err e -> e = KeyError) /\
  ((exists e, convert typ fs names ids = Err e) <-> exists b n, In b ids /\ In n names /\ unusable (fs n) b).
Proof.
  intros ND. pose proof (convert_inv typ fs names ids ND) as K.
  assert (B : existsb (bad fs (sort_names names)) ids = true <-> exists b n, In b ids /\ In n names /\ unusable (fs n) b).
  { rewrite existsb_exists. unfold bad. split.
    - intros (b & Hb & H). apply existsb_exists in H. destruct H as (n & Hn & H). exists b, n. split; [exact Hb|]. split; [eapply Permutation_in; [apply Permutation_sym, sort_names_perm|exact Hn]|].
      now apply file_bad_iff.
    - intros (b & n & Hb & Hn & H). exists b. split; [exact Hb|]. apply existsb_exists. exists n. split; [eapply Permutation_in; [apply sort_names_perm|exact Hn]|]. now apply file_bad_iff. }
  destruct (existsb _ ids) eqn:E.
  - split; [intros e H; rewrite K in H; now injection H as <-|]. split; [intros _; now apply B|eauto].
  - destruct K as (s & K & _). split; [intros e H; rewrite K in H; discriminate|]. split; [intros (e & H); rewrite K in H; discriminate|]. intros H. apply B in H. discriminate.
Qed.

(** ** A building in a single file *)
Lemma named_in : forall cs m c k, nth_error cs k = Some c -> (exists q, c = App q) -> In (c, (m + k)%nat) (named m cs).
Proof.
  induction cs as [|d cs IH]; intros m c k H (q & ->); [destruct k; discriminate|]. destruct k as [|k]; cbn in H.
  - injection H as ->. cbn. left. now rewrite Nat.add_0_r.
  - replace (m + S k)%nat with (S m + k)%nat by lia. cbn [named]. destruct d; try (right; apply IH; eauto); apply IH; eauto.
Qed.
Lemma named_out : forall cs m c j, In (c, j) (named m cs) -> exists k, j = (m + k)%nat /\ nth_error cs k = Some c.
Proof.
  induction cs as [|d cs IH]; intros m c j H; [destruct H|]. assert (K : (c, j) = (d, m) \/ In (c, j) (named (S m) cs)) by (cbn in H; destruct d; auto; destruct H as [<-|H]; auto).
  destruct K as [[= -> ->]|K]; [exists 0%nat; split; [lia|reflexivity]|]. destruct (IH _ _ _ K) as (k & -> & E). exists (S k). split; [lia|exact E].
Qed.
Lemma nodup_kept header rs : NoDup header -> NoDup (kept header rs).
Proof. intros H. unfold kept. now apply NoDup_filter, NoDup_filter. Qed.
Lemma nodup_out header rs : NoDup header -> NoDup (out_of header rs).
Proof.
  intros H. pose proof (nodup_kept _ rs H) as K. unfold out_of. destruct (_ || _) eqn:E.
  - assert (A : NoDup (Use :: filter (fun c => negb (mem c [Grid; Solar; Solar2])) (kept header rs))).
    { constructor; [|now apply NoDup_filter]. intros I. apply filter_In in I. destruct I as [I _]. apply in_kept in I. destruct I as (_ & _ & I). discriminate. }
    eapply Permutation_NoDup; [|exact A]. apply Permutation_cons_append.
  - assert (N : forall c, In c (kept header rs) -> c <> Use) by (intros c I ->; apply in_kept in I; destruct I as (_ & _ & I); discriminate). clear E. induction K as [|c l Hc K IH]; cbn; constructor.
    + intros I. apply in_map_iff in I. destruct I as (d & E & Hd). assert (c = d); [|subst; contradiction].
      pose proof (N c (or_introl eq_refl)). pose proof (N d (or_intror Hd)). destruct c, d; try congruence.
    + apply IH. intros d Hd. apply N. now right.
Qed.
Lemma only_frames fs names n b : only_in fs names n b -> forall ns, Permutation names ns -> exists l1 l2, ns = l1 ++ n :: l2 /\ (forall n', In n' (l1 ++ l2) -> eff (fs n') b = mkFrame [] []).
Proof.
  intros (Hn & ND & H) ns HP. assert (Hn' : In n ns) by (eapply Permutation_in; eassumption). apply in_split in Hn'. destruct Hn' as (l1 & l2 & ->). exists l1, l2. split; [reflexivity|].
  intros n' K. assert (A : In n' names) by (eapply Permutation_in; [apply Permutation_sym; exact HP|]; apply in_or_app; apply in_app_or in K; destruct K; [left|right; right]; assumption).
  assert (B : n' <> n). { intros ->. assert (ND' : NoDup (l1 ++ n :: l2)) by (eapply Permutation_NoDup; eassumption). apply NoDup_remove_2 in ND'. contradiction. }
  unfold eff. rewrite (proj1 (absent_empty (fs n') b (H n' A B))). reflexivity.
Qed.
Lemma steady_solar_grid fl b : steady fl b -> file_bad fl b = false -> with_solar (f_header fl) (file_rows fl b) -> with_grid (f_header fl) (file_rows fl b).
Proof.
  intros HS HB H. assert (R : exists r, In r (file_rows fl b)) by (destruct H as [[_ (r & v & A & _)]|[_ (r & v & A & _)]]; eauto). destruct R as (r & Hr).
  unfold file_rows in Hr. change (In r (of_building b (concat (f_chunks fl)))) in Hr. rewrite of_building_concat in Hr. apply in_concat in Hr. destruct Hr as (rs & Hrs & Hr). apply in_map_iff in Hrs. destruct Hrs as (ch & <- & Hc).
  assert (N : of_building b ch <> []) by (intros E; rewrite E in Hr; destruct Hr). apply grid_iff. rewrite <- (steady_kept _ _ _ HS Hc N). apply grid_iff. apply solar_iff in H. rewrite <- (steady_kept _ _ _ HS Hc N) in H. apply solar_iff in H.
  destruct (mem Grid (kept (f_header fl) (of_building b ch))) eqn:E; [now apply grid_iff|]. exfalso. rewrite <- not_true_iff_false in HB. apply HB. apply file_bad_iff. exists ch. split; [exact Hc|]. split; [exact H|].
  intros G. apply grid_iff in G. congruence.
Qed.
Lemma site_empty l1 Fs m : (forall f, In f l1 -> columns f = []) -> fold_left (fun a f => match m with O => a | S k => match nth_error (columns f) k with Some Use => Some true | Some _ => Some false | None => a end end) l1 Fs = Fs.
Proof. induction l1 as [|f l IH]; intros H; [reflexivity|]. cbn [fold_left]. rewrite (H f (or_introl eq_refl)). destruct m as [|[|?]]; cbn; apply IH; intros; apply H; now right. Qed.

Theorem single_ok typ fs names ids t metas n b ms : NoDup ids -> convert typ fs names ids = Ok (t, metas) -> In b ids -> only_in fs names n b ->
  NoDup (f_header (fs n)) -> steady (fs n) b -> meters_of (f_header (fs n)) (file_rows (fs n) b) ms -> ms <> [] ->
  exists j md, nth_error metas j = Some (b, md) /\ m_instance md = Some (S j) /\
    (forall k c, nth_error ms k = Some c -> exists l, Forall2 (fun r x => fst x = r_time r /\ is_power (f_header (fs n)) (file_rows (fs n) b) c r (snd x)) (file_rows (fs n) b) l /\ by_time l (table t (S j, S k))) /\
    (forall m, (m = 0 \/ length ms < m)%nat -> table t (S j, m) = [] /\ dget Nat.eqb (m_meters md) m = None) /\
    (forall k, dget Nat.eqb (m_meters md) (S k) = Some true <-> nth_error ms k = Some Use) /\
    (forall c m, In (c, m) (map (fun a => (p_name a, p_meter a)) (m_apps md)) <-> exists k q, m = S k /\ c = App q /\ nth_error ms k = Some c) /\
    NoDup (map p_name (m_apps md)).
Proof.
  intros ND E Hb HO NH HS HM Hne. destruct (convert_get _ _ _ _ _ _ ND E) as (HB & s & -> & -> & (_ & HK & HMe & HT)).
  pose proof (meters_det _ _ _ _ HM (out_meters _ _)) as ->. set (hd := f_header (fs n)) in *. set (rs := file_rows (fs n) b) in *.
  assert (Hn : In n names) by apply HO. pose proof (HB b Hb n Hn) as HBn.
  destruct (file_ok (fs n) b _ HS (out_meters _ _) (steady_solar_grid _ _ HS HBn)) as [_ FO]. fold hd rs in FO. specialize (FO Hne).
  destruct FO as (f & (pv & EX & EE) & EC & ER). rewrite extract_eq, HBn in EX. injection EX as <- _.
  assert (HD : data fs (sort_names names) b = true). { apply data_iff; [apply HB; exact Hb|]. exists n, (file_frame (fs n) b). split; [exact Hn|]. exists (false || file_solar (fs n) b). rewrite extract_eq, HBn. auto. }
  assert (HI : In b (map fst (c_metas s))) by (rewrite HK; apply filter_In; auto). apply In_nth_error in HI. destruct HI as (j & Hj). rewrite nth_error_map in Hj.
  destruct (nth_error (c_metas s) j) as [[b' md]|] eqn:EJ; [|discriminate]. cbn in Hj. injection Hj as ->. exists j, md. split; [exact EJ|]. destruct (HMe j b md EJ) as (D & _ & TB).
  destruct D as (D1 & D2 & D3 & D4 & D5). split; [exact D1|].
  destruct (only_frames fs names n b HO _ (sort_names_perm names)) as (l1 & l2 & EN & EF).
  assert (FR : frames fs (sort_names names) b = map (fun _ => mkFrame [] []) l1 ++ file_frame (fs n) b :: map (fun _ => mkFrame [] []) l2).
  { unfold frames. rewrite EN, map_app. cbn [map]. f_equal; [apply map_ext_in; intros; apply EF, in_or_app; now left|]. f_equal; [unfold eff; now rewrite EE|]. apply map_ext_in; intros; apply EF, in_or_app; now right. }
  assert (CE : forall {B} (g : frame -> list B) (l : list nat), g (mkFrame [] []) = [] -> concat (map g (map (fun _ => mkFrame [] []) l)) = []) by (intros B g l Hg; induction l as [|? ? IH]; cbn; [reflexivity|]; rewrite Hg; exact IH).
  assert (TT : forall m, table (c_tables s) (S j, m) = column_rows (file_frame (fs n) b) m).
  { intros m. rewrite TB, FR, map_app, concat_app. cbn [map concat]. rewrite !(CE _ (fun f => column_rows f m)) by (destruct m as [|[|?]]; reflexivity). cbn. now rewrite app_nil_r. }
  assert (AA : map (fun a => (p_name a, p_meter a)) (m_apps md) = named 1 (out_of hd rs)).
  { rewrite D2, FR, map_app, concat_app. cbn [map concat]. rewrite !(CE _ (fun f => named 1 (columns f))) by reflexivity. cbn. now rewrite app_nil_r, EC. }
  assert (SS : forall m, dget Nat.eqb (m_meters md) m = match m with O => None | S k => match nth_error (out_of hd rs) k with Some Use => Some true | Some _ => Some false | None => None end end).
  { intros m. rewrite D5, FR. unfold site_flag. rewrite fold_left_app. cbn [fold_left]. rewrite site_empty by (intros f Hf; apply in_map_iff in Hf; destruct Hf as (? & <- & _); reflexivity).
    rewrite site_empty by (intros f Hf; apply in_map_iff in Hf; destruct Hf as (? & <- & _); reflexivity). rewrite EC. reflexivity. }
  split; [intros k c Hk; destruct (ER k c Hk) as (l & A & B); exists l; rewrite TT; auto|]. split.
  - intros m Hm. rewrite TT, SS. unfold column_rows. destruct m as [|k]; [auto|]. rewrite EC, (proj2 (nth_error_None (out_of hd rs) k)) by lia. auto.
  - split; [intros k; rewrite SS; destruct (nth_error (out_of hd rs) k) as [[]|]; split; intros; congruence|]. split.
    + rewrite AA. intros c m. split.
      * intros H. destruct (named_out _ _ _ _ H) as (k & -> & Hk). pose proof (nth_error_In _ _ Hk) as I. destruct (out_in _ _ _ I) as [(q & -> & _)|[-> _]]; [exists k, q; auto|].
        exfalso. revert H. generalize 1%nat at 2. generalize (1 + k)%nat. clear. induction (out_of hd rs) as [|d l IH]; intros x y H; [destruct H|]. cbn in H. destruct d; try (now apply IH in H). destruct H as [H|H]; [discriminate|now apply IH in H].
      * intros (k & q & -> & -> & Hk). apply (named_in _ 1 _ _ Hk). eauto.
    + replace (map p_name (m_apps md)) with (map fst (map (fun a => (p_name a, p_meter a)) (m_apps md))) by (rewrite map_map; reflexivity). rewrite AA.
      pose proof (nodup_out hd rs NH) as NO. revert NO. generalize 1%nat. clear. induction (out_of hd rs) as [|d l IH]; intros x NO; [constructor|]. apply NoDup_cons_iff in NO. destruct NO as [N1 N2].
      assert (NI : ~ In d (map fst (named (S x) l))). { intros H. apply in_map_iff in H. destruct H as ([c m] & E & H). cbn in E. subst c. apply named_out in H. destruct H as (k & _ & H). apply N1. eapply nth_error_In. exact H. }
      cbn [named]. destruct d; try (now apply IH). cbn [map fst]. constructor; [exact NI|]. now apply IH.
Qed.
