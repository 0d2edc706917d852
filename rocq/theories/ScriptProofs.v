(** Proofs about activity scripts. *)
From Coq Require Import Permutation.
From Verif Require Import Base ActivationsModel ActivationsSpec ActivationsProofs ScriptModel ScriptSpec.
Open Scope nat_scope.

Lemma last_opt_some {A} (l : list A) x : last_opt l = Some x <-> exists r, l = r ++ [x].
Proof.
  split.
  - revert x. induction l as [|a l IH]; intros x H; [discriminate|]. destruct l as [|b l]; [injection H as <-; exists []; reflexivity|].
    destruct (IH x H) as (r & E). exists (a :: r). rewrite E. reflexivity.
  - intros (r & ->). apply last_opt_app1.
Qed.

Lemma first_time_thm a t : first_time a = Ok t <-> begins a t.
Proof. unfold first_time, begins. destruct a as [|[u v] r]; split; [discriminate|intros (v & r & D); discriminate|intros [= <-]; exists v, r; reflexivity|intros (w & r' & E); injection E as -> _ _; reflexivity]. Qed.
Lemma last_time_thm a t : last_time a = Ok t <-> ends a t.
Proof.
  unfold last_time, ends. destruct (last_opt a) as [[u v]|] eqn:E.
  - apply last_opt_some in E. destruct E as (r & ->). split; [intros [= <-]; exists v, r; reflexivity|]. intros (w & r' & E). apply app_inj_tail in E. destruct E as [_ E]. injection E as -> _. reflexivity.
  - split; [discriminate|]. intros (v & r & ->). rewrite last_opt_app1 in E. discriminate.
Qed.

(** The pairs of times. *)
Definition pairs_of (acts : list (list sample)) (l : list (Z * Z)) : Prop := Forall2 (fun a p => begins a (fst p) /\ ends a (snd p)) acts l.

Lemma pairs_ok acts l : mapM (fun a => do s <- first_time a; do e <- last_time a; Ok (s, e)) acts = Ok l <-> pairs_of acts l.
Proof.
  unfold pairs_of. revert l. induction acts as [|a acts IH]; intros l; cbn [mapM].
  - split; [intros [= <-]; constructor|intros H; inversion H; reflexivity].
  - split.
    + destruct (first_time a) as [s|] eqn:E1; cbn; [|discriminate]. destruct (last_time a) as [e|] eqn:E2; cbn; [|discriminate].
      destruct (mapM _ acts) as [l'|] eqn:E; cbn; [|discriminate]. intros [= <-]. constructor; [cbn; split; [apply first_time_thm; exact E1|apply last_time_thm; exact E2]|]. apply IH. reflexivity.
    + intros H. inversion H as [|a' p acts' l' [H1 H2] Hr]; subst. apply first_time_thm in H1. apply last_time_thm in H2. rewrite H1, H2. cbn. apply IH in Hr. rewrite Hr. destruct p. reflexivity.
Qed.

(** What the script contains. *)
Lemma script_thm sort_index acts s : sorts sort_index -> activity_script sort_index acts = Ok s ->
  in_time_order s /\ exists starts stops, Permutation s (map (fun t => (t, true)) starts ++ map (fun t => (t, false)) stops) /\
    Forall2 begins acts starts /\ Forall2 ends acts stops.
Proof.
  intros HS. unfold activity_script. destruct (mapM _ acts) as [l|] eqn:E; cbn [bind]; [|discriminate]. intros [= <-]. apply pairs_ok in E.
  destruct (HS (map (fun p => (fst p, true)) l ++ map (fun p => (snd p, false)) l)) as [P O]. split; [exact O|]. exists (map fst l), (map snd l). split; [|split].
  - rewrite !map_map. apply Permutation_sym. exact P.
  - clear -E. induction E as [|a p acts l [H1 H2] HF IH]; constructor; assumption.
  - clear -E. induction E as [|a p acts l [H1 H2] HF IH]; constructor; assumption.
Qed.

Lemma script_works sort_index acts : Forall (fun a => a <> []) acts -> exists s, activity_script sort_index acts = Ok s.
Proof.
  intros H. unfold activity_script. assert (X : exists l, pairs_of acts l).
  { induction H as [|a acts Ha HF (l & IH)]; [exists []; constructor|]. destruct a as [|[t v] r] eqn:E; [contradiction|]. destruct (exists_last (l := a)) as (r' & [u w] & E'); [rewrite E; discriminate|].
    exists ((t, u) :: l). constructor; [|exact IH]. cbn. split; [exists v, r; reflexivity|]. exists w, r'. rewrite <- E. exact E'. }
  destruct X as (l & X). apply pairs_ok in X. rewrite X. cbn. eexists. reflexivity.
Qed.

(** Sorted permutations of distinct times are equal. *)
Lemma order_cons a s : in_time_order (a :: s) <-> Forall (fun b => (fst a <= fst b)%Z) s /\ in_time_order s.
Proof.
  revert a. induction s as [|b s IH]; intros a; [split; [intros _; split; [constructor|exact I]|intros _; exact I]|].
  change (in_time_order (a :: b :: s)) with ((fst a <= fst b)%Z /\ in_time_order (b :: s)). split.
  - intros [H1 H2]. split; [|exact H2]. constructor; [exact H1|]. apply IH in H2. eapply Forall_impl; [|apply H2]. cbn. intros; lia.
  - intros [H1 H2]. apply Forall_cons_iff in H1. split; [apply H1|exact H2].
Qed.

Lemma sorted_unique s s' : Permutation s s' -> in_time_order s -> in_time_order s' -> NoDup (map fst s) -> s = s'.
Proof.
  revert s'. induction s as [|a s IH]; intros s' HP H1 H2 HN; [apply Permutation_nil in HP; congruence|].
  destruct s' as [|b s']; [apply Permutation_sym, Permutation_nil in HP; discriminate|].
  assert (E : a = b).
  { apply order_cons in H1. apply order_cons in H2. destruct H1 as [H1 _]. destruct H2 as [H2 _]. rewrite Forall_forall in H1, H2. cbn [map] in HN. apply NoDup_cons_iff in HN. destruct HN as [HN _].
    assert (Ia : In a (b :: s')) by (eapply Permutation_in; [exact HP|left; reflexivity]). assert (Ib : In b (a :: s)) by (eapply Permutation_in; [apply Permutation_sym; exact HP|left; reflexivity]).
    destruct Ia as [->|Ia]; [reflexivity|]. destruct Ib as [->|Ib]; [reflexivity|]. exfalso. apply HN. specialize (H1 b Ib). specialize (H2 a Ia). replace (fst a) with (fst b) by lia. apply in_map. exact Ib. }
  subst b. f_equal. apply IH; [apply Permutation_cons_inv in HP; exact HP|apply order_cons in H1; apply H1|apply order_cons in H2; apply H2|cbn [map] in HN; apply NoDup_cons_iff in HN; apply HN].
Qed.

Lemma begins_fun a s s' : begins a s -> begins a s' -> s = s'.
Proof. intros (v & r & ->) (v' & r' & E). congruence. Qed.
Lemma ends_fun a s s' : ends a s -> ends a s' -> s = s'.
Proof. intros (v & r & ->) (v' & r' & E). apply app_inj_tail in E. destruct E as [_ E]. congruence. Qed.

(** The script by turns. *)
Definition turns (l : list (Z * Z)) : script := concat (map (fun p => [(fst p, true); (snd p, false)]) l).

Lemma turns_perm l : Permutation (map (fun p => (fst p, true)) l ++ map (fun p => (snd p, false)) l) (turns l).
Proof.
  induction l as [|p l IH]; [constructor|]. cbn [map app turns concat]. apply perm_skip. fold (turns l).
  eapply Permutation_trans; [apply Permutation_sym, Permutation_middle|]. apply perm_skip. exact IH.
Qed.

Lemma turns_by_turns acts l : pairs_of acts l -> by_turns acts (turns l).
Proof. induction 1 as [|a p acts l [H1 H2] HF IH]; [constructor|]. cbn. constructor; assumption. Qed.

Lemma separate_turns acts : forall l, pairs_of acts l -> separate acts -> in_time_order (turns l) /\ NoDup (map fst (turns l)) /\
  match acts with a :: _ => forall s, begins a s -> Forall (fun t => (s <= t)%Z) (map fst (turns l)) | [] => True end.
Proof.
  induction acts as [|a acts IH]; intros l H HS; inversion H as [|a' p acts' l' [H1 H2] HF]; subst; [cbn; repeat split; constructor|].
  destruct HS as [(s & e & Hs & He & Lt) [HN HS]]. pose proof (begins_fun _ _ _ H1 Hs) as Es. pose proof (ends_fun _ _ _ H2 He) as Ee.
  destruct (IH l' HF HS) as (I1 & I2 & I3). destruct p as [s' e']. cbn [fst snd] in *. subst s' e'.
  assert (Q : Forall (fun t => (e < t)%Z) (map fst (turns l'))).
  { destruct acts as [|b acts]; [inversion HF; subst; constructor|]. destruct HN as (e1 & s1 & He1 & Hs1 & L1). rewrite (ends_fun _ _ _ He1 He) in L1. specialize (I3 s1 Hs1). eapply Forall_impl; [|exact I3]. cbn. intros; lia. }
  change (turns ((s, e) :: l')) with ((s, true) :: (e, false) :: turns l').
  assert (Q' : Forall (fun b => (e < fst b)%Z) (turns l')) by (rewrite Forall_forall in Q |- *; intros b Hb; apply Q; apply in_map; exact Hb).
  split; [|split].
  - apply order_cons. split; [constructor; [cbn; lia|eapply Forall_impl; [|exact Q']; cbn; intros; lia]|]. apply order_cons. split; [eapply Forall_impl; [|exact Q']; cbn; intros; lia|exact I1].
  - rewrite Forall_forall in Q. cbn [map fst]. constructor; [intros [X|X]; [lia|apply Q in X; lia]|]. constructor; [intros X; apply Q in X; lia|exact I2].
  - intros s0 Hs0. rewrite (begins_fun _ _ _ Hs0 H1). cbn [map fst]. constructor; [lia|]. constructor; [lia|]. eapply Forall_impl; [|exact Q]. cbn. intros; lia.
Qed.

Lemma turns_thm sort_index acts : sorts sort_index -> separate acts -> exists s, activity_script sort_index acts = Ok s /\ by_turns acts s.
Proof.
  intros HS HP. assert (X : exists l, pairs_of acts l).
  { clear HS. induction acts as [|a acts IH]; [exists []; constructor|]. destruct HP as [(s & e & Hs & He & _) [_ HP]]. destruct (IH HP) as (l & Hl). exists ((s, e) :: l). constructor; [cbn; auto|exact Hl]. }
  destruct X as (l & X). unfold activity_script. rewrite (proj2 (pairs_ok acts l) X). cbn [bind]. eexists. split; [reflexivity|].
  destruct (separate_turns acts l X HP) as (O & N & _). destruct (HS (map (fun p => (fst p, true)) l ++ map (fun p => (snd p, false)) l)) as [P O'].
  rewrite <- (sorted_unique (turns l) _); [apply turns_by_turns; exact X| |exact O|exact O'|exact N].
  eapply Permutation_trans; [apply Permutation_sym, turns_perm|exact P].
Qed.

(** Reported activations are separate when the readings are dense. *)
Lemma nth_app_mid {A} (b r a : list A) i : i < length r -> nth_error (b ++ r ++ a) (length b + i) = nth_error r i.
Proof. intros H. rewrite nth_error_app2 by lia. rewrite nth_error_app1 by lia. f_equal. lia. Qed.

Lemma rows_times chunk border r rows : rows_of chunk border r rows -> fst r < snd r -> snd r < length chunk ->
  exists s e, begins rows (fst s) /\ ends rows (fst e) /\ nth_error chunk (fst r - (1 + border)) = Some s /\ nth_error chunk (Nat.min (length chunk) (snd r + border) - 1) = Some e.
Proof.
  intros (before & after & E & L1 & L2) H1 H2. set (n := length rows) in *. assert (Hn : 0 < n) by lia.
  destruct rows as [|s rows']; [cbn in n; lia|]. destruct (exists_last (l := s :: rows')) as (r' & e & E'); [discriminate|].
  exists s, e. split; [exists (snd s), rows'; destruct s; reflexivity|]. split; [exists (snd e), r'; destruct e; exact E'|]. split.
  - rewrite E, <- L1. replace (length before) with (length before + 0) by lia. rewrite nth_app_mid by (cbn; lia). reflexivity.
  - replace (Nat.min (length chunk) (snd r + border) - 1) with (length before + (n - 1)) by lia. rewrite E. unfold n. rewrite nth_app_mid by (cbn; lia). rewrite E'. rewrite app_length. cbn [length].
    replace (length r' + 1 - 1) with (length r' + 0) by lia. rewrite nth_error_app2 by lia. replace (length r' + 0 - length r') with 0 by lia. reflexivity.
Qed.

Lemma strict_weak chunk : strictly_ordered chunk -> time_ordered chunk.
Proof.
  intros H i j a b L Ha Hb. destruct (Nat.eq_dec i j) as [->|N]; [rewrite Ha in Hb; injection Hb as <-; lia|]. specialize (H i j a b ltac:(lia) Ha Hb). lia.
Qed.

Lemma on_length thr chunk i : off_at thr chunk i -> i < length chunk.
Proof. intros (s & E & _). apply nth_error_Some. congruence. Qed.

Lemma report_separate thr chunk moff mon border l out : strictly_ordered chunk -> (border = 0 \/ dense chunk (2 * border) moff) ->
  Forall (switched thr chunk) l -> apart thr chunk moff l -> report chunk mon border l out ->
  separate out /\ Forall (fun a => exists s e i j, i <= j /\ nth_error chunk i = Some s /\ nth_error chunk j = Some e /\ begins a (fst s) /\ ends a (fst e) /\ match l with [] => False | r :: _ => fst r - (1 + border) <= i end) out.
Proof.
  intros HO HD HS HA HR. revert HS HA. induction HR as [|r l rows out (HR1 & HR2 & HR3) HR IH|r l out HN HR IH]; intros HS HA.
  - split; [exact I|constructor].
  - apply Forall_cons_iff in HS. destruct HS as [HS1 HS2]. assert (HA2 : apart thr chunk moff l) by (destruct l; [exact I|apply HA]).
    destruct (IH HS2 HA2) as [I1 I2]. destruct r as [i j]. destruct HS1 as (P1 & P2 & P3 & P4 & P5 & P6). apply on_length in P6. cbn [fst snd] in *.
    destruct (rows_times chunk border (i, j) rows HR1 P2 P6) as (s & e & B & E & Ns & Ne). cbn [fst snd] in *.
    assert (Lt : (fst s < fst e)%Z) by (refine (HO _ _ _ _ _ Ns Ne); lia).
    split.
    + cbn [separate]. split; [exists (fst s), (fst e); auto|]. split; [|exact I1]. destruct out as [|b out]; [exact I|].
      apply Forall_cons_iff in I2. destruct I2 as [(s' & e' & i' & j' & Hij & Ns' & Ne' & B' & E' & Hl) _]. exists (fst e), (fst s'). split; [exact E|]. split; [exact B'|].
      refine (HO _ _ _ _ _ Ne Ns'). destruct l as [|r' l]; [destruct Hl|]. destruct HA as (A1 & A2 & A3 & A4). cbn [fst snd] in *.
      destruct HD as [->|HD]; [lia|]. destruct A3 as (d & (x & y & Hx & Hy & ->) & L). destruct (Nat.le_gt_cases (fst r') (j + 2 * border)) as [G|G]; [|lia].
      specialize (HD j (fst r') x y ltac:(lia) G Hx Hy). lia.
    + constructor; [exists s, e, (i - (1 + border)), (Nat.min (length chunk) (j + border) - 1); repeat split; auto; cbn; lia|].
      eapply Forall_impl; [|exact I2]. cbn. intros a (s' & e' & i' & j' & Hij & Ns' & Ne' & B' & E' & Hl). exists s', e', i', j'. repeat split; auto. destruct l as [|r' l]; [destruct Hl|]. destruct HA as (A1 & _). cbn [fst snd] in *. lia.
  - apply Forall_cons_iff in HS. destruct HS as [HS1 HS2]. assert (HA2 : apart thr chunk moff l) by (destruct l; [exact I|apply HA]).
    destruct (IH HS2 HA2) as [I1 I2]. split; [exact I1|]. eapply Forall_impl; [|exact I2]. cbn. intros a (s' & e' & i' & j' & Hij & Ns' & Ne' & B' & E' & Hl). exists s', e', i', j'. repeat split; auto.
    destruct l as [|r' l]; [destruct Hl|]. destruct r as [i j]. destruct HS1 as (_ & P2 & _). destruct HA as (A1 & _). cbn [fst snd] in *. lia.
Qed.

(** Over several chunks. *)
Lemma strict_app c cs : strictly_ordered (c ++ cs) -> strictly_ordered c /\ strictly_ordered cs /\ forall a b, In a c -> In b cs -> (fst a < fst b)%Z.
Proof.
  intros H. split; [|split].
  - intros i j a b L Ha Hb. apply (H i j a b L); rewrite nth_error_app1; auto; apply nth_error_Some; congruence.
  - intros i j a b L Ha Hb. apply (H (length c + i) (length c + j) a b); [lia| |]; rewrite nth_error_app2 by lia; [replace (length c + i - length c) with i by lia|replace (length c + j - length c) with j by lia]; assumption.
  - intros a b Ha Hb. apply In_nth_error in Ha, Hb. destruct Ha as [i Hi], Hb as [j Hj]. assert (Li : i < length c) by (apply nth_error_Some; congruence).
    apply (H i (length c + j)); [lia|rewrite nth_error_app1 by exact Li; exact Hi|rewrite nth_error_app2 by lia; replace (length c + j - length c) with j by lia; exact Hj].
Qed.

Definition inside (chunk : list sample) (a : list sample) : Prop := exists s e, In s chunk /\ In e chunk /\ begins a (fst s) /\ ends a (fst e).

Lemma separate_app c cs l l' : (forall a b, In a c -> In b cs -> (fst a < fst b)%Z) -> Forall (inside c) l -> Forall (inside cs) l' -> separate l -> separate l' -> separate (l ++ l').
Proof.
  intros H. induction l as [|a l IH]; intros F F' S S'; [exact S'|]. apply Forall_cons_iff in F. destruct F as [F1 F2]. destruct S as (S1 & S2 & S3). cbn [app separate]. split; [exact S1|]. split; [|apply IH; assumption].
  destruct l as [|b l]; cbn [app]; [|exact S2]. destruct l' as [|b l']; [exact I|]. apply Forall_cons_iff in F'. destruct F' as [(s' & e' & Is & Ie & B & E) _]. destruct F1 as (s & e & Is1 & Ie1 & B1 & E1).
  exists (fst e), (fst s'). auto.
Qed.

Lemma activations_separate thr moff mon border chunks : forall outs, strictly_ordered (concat chunks) -> (border = 0 \/ Forall (fun c => dense c (2 * border) moff) chunks) ->
  mapM (fun c => get_activations c moff mon border thr) chunks = Ok outs -> separate (concat outs) /\ Forall (inside (concat chunks)) (concat outs).
Proof.
  induction chunks as [|c chunks IH]; intros outs HO HD E; cbn [mapM] in E; [injection E as <-; split; [exact I|constructor]|].
  cbn [concat] in HO. apply strict_app in HO. destruct HO as (O1 & O2 & O3). destruct (get_activations c moff mon border thr) as [o|] eqn:Ec; cbn [bind] in E; [|discriminate].
  destruct (mapM _ chunks) as [os|] eqn:Ecs; cbn [bind] in E; [|discriminate]. injection E as <-. destruct (IH os O2) as [S2 F2]; [destruct HD as [->|HD]; [left; reflexivity|right; apply Forall_cons_iff in HD; apply HD]|reflexivity|].
  destruct (activations_thm c thr moff mon border (strict_weak c O1)) as (l & o' & Eo & (P1 & P2 & P3 & P4) & R). rewrite Ec in Eo. injection Eo as <-.
  destruct (report_separate thr c moff mon border l o O1) as [S1 F1]; auto; [destruct HD as [->|HD]; [left; reflexivity|right; apply Forall_cons_iff in HD; apply HD]|].
  assert (F1' : Forall (inside c) o).
  { eapply Forall_impl; [|exact F1]. cbn. intros a (s & e & i & j & _ & Ns & Ne & B & En & _). exists s, e. apply nth_error_In in Ns, Ne. auto. }
  cbn [concat]. split; [apply (separate_app c (concat chunks)); assumption|]. apply Forall_app. split; (eapply Forall_impl; [|eassumption]); cbn; intros a (s & e & Is & Ie & B & En); exists s, e; repeat split; auto; apply in_or_app; auto.
Qed.

(** ** The file *)
Lemma skey_eqb_eq a b : skey_eqb a b = true <-> a = b.
Proof.
  unfold skey_eqb. destruct a as [a [b1 c]], b as [a' [b' c']]. cbn. rewrite !andb_true_iff, !Nat.eqb_eq. split; [intros (-> & -> & ->); reflexivity|]. intros E. injection E as -> -> ->. auto.
Qed.
Definition lookup (k : skey) (file : list (skey * script)) : option script :=
  match find (fun p => skey_eqb (fst p) k) file with Some p => Some (snd p) | None => None end.
Lemma lookup_put k s k' file : lookup k' (put k s file) = if skey_eqb k k' then Some s else lookup k' file.
Proof.
  unfold lookup. induction file as [|[j v] file IH]; cbn [put find fst].
  - destruct (skey_eqb k k'); reflexivity.
  - destruct (skey_eqb j k) eqn:E; cbn [find fst].
    + apply skey_eqb_eq in E. subst j. destruct (skey_eqb k k'); reflexivity.
    + destruct (skey_eqb j k') eqn:F; [|exact IH]. destruct (skey_eqb k k') eqn:G; [|reflexivity]. apply skey_eqb_eq in F, G. subst. rewrite (proj2 (skey_eqb_eq _ _) eq_refl) in E. discriminate.
Qed.
Lemma put_keys k s file : NoDup (map fst file) -> NoDup (map fst (put k s file)) /\ forall j, In j (map fst (put k s file)) <-> j = k \/ In j (map fst file).
Proof.
  induction file as [|[j v] file IH]; intros N; cbn [put map fst].
  - split; [constructor; [intros []|constructor]|]. intros j. cbn. intuition.
  - cbn [map fst] in N. apply NoDup_cons_iff in N. destruct N as [N1 N2]. destruct (IH N2) as [I1 I2]. destruct (skey_eqb j k) eqn:E; cbn [map fst].
    + apply skey_eqb_eq in E. subst. split; [constructor; assumption|]. intros i. cbn. intuition.
    + split; [constructor; [|exact I1]|].
      * rewrite I2. intros [->|H]; [rewrite (proj2 (skey_eqb_eq k k) eq_refl) in E; discriminate|contradiction].
      * intros i. cbn. rewrite I2. intuition.
Qed.

(** Writing is a fold over all submeters. *)
Definition write_entry (sort_index : script -> script) (file : list (skey * script)) (e : nat * submeter) : res (list (skey * script)) :=
  write_meter sort_index (fst e) file (snd e).
Fixpoint write_entries (sort_index : script -> script) (file : list (skey * script)) (l : list (nat * submeter)) : res (list (skey * script)) :=
  match l with [] => Ok file | e :: r => do file <- write_entry sort_index file e; write_entries sort_index file r end.

Lemma entries_app si l : forall l' file, write_entries si file (l ++ l') = do f <- write_entries si file l; write_entries si f l'.
Proof. induction l as [|e l IH]; intros l' file; [reflexivity|]. cbn [app write_entries]. destruct (write_entry si file e); cbn [bind]; [apply IH|reflexivity]. Qed.
Lemma meters_entries si b ms : forall file, write_meters si b file ms = write_entries si file (map (pair b) ms).
Proof. induction ms as [|m ms IH]; intros file; [reflexivity|]. cbn [write_meters map write_entries]. unfold write_entry. cbn [fst snd]. destruct (write_meter si b file m); cbn [bind]; [apply IH|reflexivity]. Qed.
Lemma buildings_entries si bs : forall file, write_buildings si file bs = write_entries si file (all_submeters bs).
Proof.
  induction bs as [|[b ms] bs IH]; intros file; [reflexivity|]. cbn [write_buildings]. unfold all_submeters. cbn [flat_map fst snd]. rewrite entries_app, meters_entries.
  destruct (write_entries si file (map (pair b) ms)); cbn [bind]; [apply IH|reflexivity].
Qed.

Lemma write_entry_ok si file e f : write_entry si file e = Ok f <-> exists app s, dominant (snd e) = Some app /\ meter_script si (snd e) s /\ f = put (fst e, app) s file.
Proof.
  unfold write_entry, write_meter, meter_script. destruct (dominant (snd e)) as [app|]; [|split; [discriminate|intros (app & s & D & _); discriminate]].
  destruct (activations_of (snd e)) as [acts|]; cbn [bind]; [|split; [discriminate|intros (app' & s & _ & (acts & D & _) & _); discriminate]].
  destruct (activity_script si acts) as [s|] eqn:E; cbn [bind].
  - split; [intros [= <-]; exists app, s; repeat split; exists acts; auto|]. intros (app' & s' & [= <-] & (acts' & [= <-] & E') & ->). congruence.
  - split; [discriminate|]. intros (app' & s' & _ & (acts' & [= <-] & E') & _). congruence.
Qed.

Lemma nodup_lookup file k s : NoDup (map fst file) -> (In (k, s) file <-> lookup k file = Some s).
Proof.
  unfold lookup. induction file as [|[j v] file IH]; intros N; [split; [intros []|discriminate]|]. cbn [map fst] in N. apply NoDup_cons_iff in N. destruct N as [N1 N2]. cbn [find fst]. destruct (skey_eqb j k) eqn:E.
  - apply skey_eqb_eq in E. subst. cbn [snd]. split; [intros [H|H]; [congruence|]|intros [= ->]; left; reflexivity]. exfalso. apply N1. apply in_map_iff. exists (k, s). auto.
  - rewrite <- (IH N2). split; [intros [H|H]; [|exact H]|right; assumption]. injection H as -> ->. rewrite (proj2 (skey_eqb_eq k k) eq_refl) in E. discriminate.
Qed.

Lemma entries_thm si l : forall file f, NoDup (map fst file) -> write_entries si file l = Ok f -> NoDup (map fst f) /\
  forall k s, In (k, s) f <-> last_script si l k s \/ (In (k, s) file /\ forall e, In e l -> ~ key_is e k).
Proof.
  induction l as [|e l IH]; intros file f N E; cbn [write_entries] in E.
  - injection E as <-. split; [exact N|]. intros k s. split; [intros H; right; split; [exact H|intros e []]|]. intros [(b & e & a & D & _)|[H _]]; [destruct b; discriminate|exact H].
  - destruct (write_entry si file e) as [file'|] eqn:E1; cbn [bind] in E; [|discriminate]. apply write_entry_ok in E1. destruct E1 as (app & s0 & Da & Hs & ->).
    destruct (put_keys (fst e, app) s0 file N) as [N' K']. destruct (IH _ f N' E) as [N2 H2]. split; [exact N2|]. intros k s. rewrite H2. rewrite (nodup_lookup _ _ _ N'), lookup_put. split.
    + intros [(b & e' & a & -> & Hk & Hm & Hn)|[H Hn]]; [left; exists (e :: b), e', a; repeat split; auto|]. destruct (skey_eqb (fst e, app) k) eqn:Ek.
      * apply skey_eqb_eq in Ek. subst k. injection H as <-. left. exists [], e, l. repeat split; auto. exists app. auto.
      * apply (nodup_lookup _ _ _ N) in H. right. split; [exact H|]. intros e' [<-|He]; [|apply Hn; exact He]. intros (app' & Da' & ->). rewrite Da in Da'. injection Da' as <-. rewrite (proj2 (skey_eqb_eq _ _) eq_refl) in Ek. discriminate.
    + intros [(b & e' & a & Eq & Hk & Hm & Hn)|[H Hn]].
      * destruct b as [|e0 b]; cbn in Eq; injection Eq as <- Eq.
        -- subst a. right. split; [|exact Hn]. destruct Hk as (app' & Da' & ->). rewrite Da in Da'. injection Da' as <-. rewrite (proj2 (skey_eqb_eq _ _) eq_refl). f_equal.
           destruct Hs as (acts & A1 & A2), Hm as (acts' & A1' & A2'). congruence.
        -- left. exists b, e', a. auto.
      * right. split; [|intros e' He; apply Hn; right; exact He]. destruct (skey_eqb (fst e, app) k) eqn:Ek; [|apply (nodup_lookup _ _ _ N); exact H].
        exfalso. apply skey_eqb_eq in Ek. apply (Hn e (or_introl eq_refl)). exists app. auto.
Qed.

Lemma file_thm si bs f : get_activity_script si bs = Ok f -> NoDup (map fst f) /\ forall k s, In (k, s) f <-> last_script si (all_submeters bs) k s.
Proof.
  unfold get_activity_script. rewrite buildings_entries. intros E. destruct (entries_thm si _ [] f (NoDup_nil _) E) as [H1 H2]. split; [exact H1|]. intros k s. rewrite H2. split; [intros [H|[[] _]]; exact H|auto].
Qed.

Lemma file_works si bs : (forall e, In e (all_submeters bs) -> dominant (snd e) <> None /\ exists s, meter_script si (snd e) s) -> exists f, get_activity_script si bs = Ok f.
Proof.
  unfold get_activity_script. rewrite buildings_entries. generalize (@nil (skey * script)). induction (all_submeters bs) as [|e l IH]; intros file H; [exists file; reflexivity|].
  cbn [write_entries]. destruct (H e (or_introl eq_refl)) as [Hd (s & Hs)]. destruct (dominant (snd e)) as [app|] eqn:Ed; [|contradiction].
  rewrite (proj2 (write_entry_ok si file e (put (fst e, app) s file))) by (exists app, s; auto). cbn [bind]. apply IH. intros e' He. apply H. right. exact He.
Qed.

Lemma file_no_dominant si bs before b m after : all_submeters bs = before ++ (b, m) :: after -> dominant m = None ->
  (forall e, In e before -> dominant (snd e) <> None /\ exists s, meter_script si (snd e) s) -> get_activity_script si bs = Err AttributeError.
Proof.
  intros E D H. unfold get_activity_script. rewrite buildings_entries, E. clear E. generalize (@nil (skey * script)). induction before as [|e l IH]; intros file.
  - cbn. unfold write_entry, write_meter. cbn [fst snd]. rewrite D. reflexivity.
  - cbn [app write_entries]. destruct (H e (or_introl eq_refl)) as [Hd (s & Hs)]. destruct (dominant (snd e)) as [app|] eqn:Ed; [|contradiction].
    rewrite (proj2 (write_entry_ok si file e (put (fst e, app) s file))) by (exists app, s; auto). cbn [bind]. apply IH. intros e' He. apply H. right. exact He.
Qed.

(** From the data of a meter to its script. *)
Lemma meter_turns si thr moff mon border chunks m outs : sorts si -> strictly_ordered (concat chunks) -> (border = 0 \/ Forall (fun c => dense c (2 * border) moff) chunks) ->
  mapM (fun c => get_activations c moff mon border thr) chunks = Ok outs -> activations_of m = Ok (concat outs) ->
  exists s, meter_script si m s /\ by_turns (concat outs) s.
Proof.
  intros HS HO HD E EA. destruct (activations_separate thr moff mon border chunks outs HO HD E) as [S _]. destruct (turns_thm si (concat outs) HS S) as (s & E1 & E2). exists s. split; [exists (concat outs); auto|exact E2].
Qed.
