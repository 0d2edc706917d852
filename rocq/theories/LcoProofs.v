(** Proofs about the disaggregator that writes to a store. *)
From Coq Require Import String.
From Verif Require Import Base TimeFrameModel TimeFrameSpec TimeFrameProofs NearestModel NearestSpec NearestProofs LcoModel LcoSpec.
Import List.
Open Scope list_scope.
Open Scope nat_scope.

(** ** Meters *)

Lemma meter_eqb_spec a b : meter_eqb a b = true <-> m_id a = m_id b.
Proof.
  unfold meter_eqb. destruct (m_id a) as [i1 b1 d1], (m_id b) as [i2 b2 d2]. cbn. rewrite !andb_true_iff, !Z.eqb_eq, Nat.eqb_eq.
  split; [intros [[-> ->] ->]; reflexivity|]. intros H. injection H as -> -> ->. auto.
Qed.

Lemma existsb_meter m l : existsb (meter_eqb m) l = false -> ~ In (m_id m) (map m_id l).
Proof.
  intros H Hin. apply in_map_iff in Hin. destruct Hin as (x & E & Hx). assert (existsb (meter_eqb m) l = true); [|congruence].
  apply existsb_exists. exists x. split; [exact Hx|]. apply meter_eqb_spec. auto.
Qed.

(** ** Reachable states *)

Definition ids (c : co) := map (fun e => m_id (e_meter e)) (c_model c).

Definition good (c : co) : Prop :=
  NoDup (ids c) /\ Forall (fun e => e_states e <> []) (c_model c) /\
  match c_combos c with
  | None => True
  | Some (w, rows) => w <= length (c_model c) /\ rows = cartesian (map e_states (firstn w (c_model c)))
  end.

Definition full (c : co) : co := mk_co (c_model c) (Some (length (c_model c), cartesian (map e_states (c_model c)))).

Lemma set_combos_full c : good c -> set_combos c = full c.
Proof.
  intros (_ & _ & H). unfold set_combos, full. destruct (c_combos c) as [[w rows]|] eqn:E; [|reflexivity]. destruct H as [H1 H2].
  destruct (w =? length (c_model c)) eqn:Ew; [|reflexivity]. apply Nat.eqb_eq in Ew. rewrite Ew in *. rewrite firstn_all in H2. subst rows w.
  destruct c as [m o]. cbn in *. rewrite E. reflexivity.
Qed.

Lemma good_full c : good c -> good (full c).
Proof.
  intros (H1 & H2 & _). repeat split; cbn [full c_model c_combos]; auto. rewrite firstn_all. reflexivity.
Qed.

Lemma good_new : good co_new.
Proof. repeat split; constructor. Qed.

Lemma good_train_on_chunk C (cluster : C -> Z -> option Z -> res (list Z)) c ch m k n c' :
  finds_states cluster -> good c -> train_on_chunk cluster c ch m k n = Ok c' -> good c'.
Proof.
  intros HF (H1 & H2 & H3). unfold train_on_chunk. destruct (existsb _ _) eqn:Ex; [discriminate|].
  destruct (cluster ch k n) as [s|] eqn:Es; [|discriminate]. cbn [bind]. intros [= <-]. apply HF in Es. apply existsb_meter in Ex.
  rewrite map_map in Ex. repeat split; cbn [c_model c_combos].
  - unfold ids in *. cbn [c_model]. rewrite map_app. cbn [map]. apply NoDup_Add with (a := m_id m) (l := map (fun e => m_id (e_meter e)) (c_model c)); [|split; [exact H1|exact Ex]].
    cbn [e_meter]. pose proof (Add_app (m_id m) (map (fun e => m_id (e_meter e)) (c_model c)) []) as A. rewrite app_nil_r in A. exact A.
  - apply Forall_app. split; [exact H2|]. constructor; [exact Es|constructor].
  - destruct (c_combos c) as [[w rows]|]; [|exact I]. destruct H3 as [H3 ->]. rewrite app_length. split; [lia|].
    rewrite firstn_app. replace (w - length (c_model c)) with 0 by lia. rewrite firstn_O, app_nil_r. reflexivity.
Qed.

Lemma good_train_loop C (cluster : C -> Z -> option Z -> res (list Z)) k ns subs : finds_states cluster ->
  forall c, good c -> good (fst (train_loop cluster c k ns subs)).
Proof.
  intros HF. induction subs as [|[m [chunks e]] subs IH]; intros c Hc; cbn [train_loop]; [exact Hc|].
  destruct chunks as [|ch rest]; [exact Hc|]. destruct (train_on_chunk _ _ _ _ _ _) as [c'|x] eqn:E; [|exact Hc].
  pose proof (good_train_on_chunk _ _ _ _ _ _ _ _ HF Hc E) as Hc'. destruct rest; [|apply IH; exact Hc'].
  destruct e as [[]|]; try exact Hc'; apply IH; exact Hc'.
Qed.

Lemma good_chunk argsort c mains : good c -> good (fst (disaggregate_chunk argsort c mains)).
Proof.
  intros H. unfold disaggregate_chunk. destruct (c_model c) eqn:E; [exact H|]. destruct (_ <? _); [exact H|]. cbn [fst]. rewrite set_combos_full by exact H. apply good_full. exact H.
Qed.

Lemma step_co argsort b s ch : good (ru_co s) -> good (ru_co (fst (step argsort b s ch))).
Proof.
  intros H. unfold step. destruct (_ <? _); [exact H|]. pose proof (good_chunk argsort (ru_co s) (map snd (ch_rows ch)) H) as G.
  destruct (disaggregate_chunk _ _ _) as [c [p|x]]; cbn [fst] in G; [|exact G].
  destruct (write_appliances _ _ _ _ _ _) as [st [x|]]; [exact G|]. destruct (append _ _ _ _); exact G.
Qed.

Lemma steps_co argsort b chs e : forall s, good (ru_co s) -> good (ru_co (fst (steps argsort b s chs e))).
Proof.
  induction chs as [|ch chs IH]; intros s H; cbn [steps]; [exact H|]. pose proof (step_co argsort b s ch H) as G.
  destruct (step argsort b s ch) as [s' [x|]]; [exact G|]. apply IH. exact G.
Qed.

Lemma good_disaggregate argsort c b mains rs sp st : good c -> good (fst (fst (disaggregate argsort c b mains rs sp st))).
Proof.
  intros H. unfold disaggregate. destruct (c_model c); [exact H|].
  pose proof (steps_co argsort b (fst mains) (snd mains) (mk_run c st [] None) H) as G.
  destruct (steps _ _ _ _ _) as [s [x|]]; [exact G|]. cbn [fst] in G. destruct (ru_measure s); [|exact G]. destruct (save_metadata _ _ _ _ _ _); exact G.
Qed.

Lemma reachable_good c : reachable c -> good c.
Proof.
  induction 1.
  - exact good_new.
  - unfold train. destruct (c_model c); [apply good_train_loop; assumption|assumption].
  - eapply good_train_on_chunk; eassumption.
  - apply good_chunk. assumption.
  - apply good_disaggregate. assumption.
  - destruct exported. exact IHreachable2.
Qed.

(** ** One chunk in memory *)

Lemma put_column_new d m col : ~ In (m_id m) (map (fun p => m_id (fst p)) d) -> put_column d m col = d ++ [(m, col)].
Proof.
  induction d as [|[m' col'] d IH]; intros H; cbn [put_column]; [reflexivity|]. destruct (meter_eqb m m') eqn:E.
  - apply meter_eqb_spec in E. cbn in H. exfalso. apply H. left. auto.
  - cbn. f_equal. apply IH. intros Hin. apply H. right. exact Hin.
Qed.

Lemma mapM_get_column (rows picks : list (list Z)) i indices : Forall2 (fun ix p => nth_error rows ix = Some p) indices picks ->
  Forall (fun p => nth_error p i <> None) picks ->
  exists col, mapM (fun ix => do row <- get rows ix; get row i) indices = Ok col /\ map (fun p => nth_error p i) picks = map Some col.
Proof.
  induction 1 as [|ix p indices picks Hp F IH]; intros HF; [exists []; auto|]. apply Forall_cons_iff in HF. destruct HF as [H1 H2].
  destruct (IH H2) as (col & E1 & E2). destruct (nth_error p i) as [v|] eqn:Ev; [|congruence]. exists (v :: col). cbn [mapM map].
  rewrite (get_some _ _ _ Hp). cbn [bind]. rewrite (get_some _ _ _ Ev). cbn [bind]. rewrite E1, E2, Ev. auto.
Qed.

Lemma predict_columns_spec rows (picks : list (list Z)) indices n : Forall2 (fun ix p => nth_error rows ix = Some p) indices picks ->
  Forall (fun p => length p = n) picks -> forall l i d, i + length l = n -> length d = i ->
  NoDup (map (fun p => m_id (fst p)) d ++ map (fun e => m_id (e_meter e)) l) ->
  (forall j m col, nth_error d j = Some (m, col) -> map (fun p => nth_error p j) picks = map Some col) ->
  exists f, predict_columns rows indices i l d = Ok f /\ map fst f = map fst d ++ map e_meter l /\
    forall j m col, nth_error f j = Some (m, col) -> map (fun p => nth_error p j) picks = map Some col.
Proof.
  intros F HL. induction l as [|e l IH]; intros i d Hn Hd ND HC; cbn [predict_columns].
  { exists d. cbn. rewrite app_nil_r. auto. }
  destruct (mapM_get_column rows picks i indices F) as (col & E1 & E2).
  { eapply Forall_impl; [|exact HL]. cbn. intros p Hp. apply nth_error_Some. cbn in Hn. lia. }
  rewrite E1. cbn [bind]. rewrite put_column_new.
  2: { intros Hin. cbn in ND. apply NoDup_remove_2 in ND. apply ND. apply in_or_app. left. exact Hin. }
  destruct (IH (S i) (d ++ [(e_meter e, col)])) as (f & E3 & E4 & E5).
  - cbn in Hn. lia.
  - rewrite app_length. cbn. lia.
  - rewrite map_app. cbn [map fst]. rewrite <- app_assoc. exact ND.
  - intros j m c Hj. destruct (Nat.lt_ge_cases j (length d)) as [H|H].
    + rewrite nth_error_app1 in Hj by exact H. eapply HC. exact Hj.
    + rewrite nth_error_app2 in Hj by exact H. assert (j = i).
      { destruct (j - length d) as [|k] eqn:Ek; [lia|]. cbn in Hj. destruct k; discriminate. }
      subst j. replace (i - length d) with 0 in Hj by lia. injection Hj as <- <-. exact E2.
  - exists f. split; [exact E3|]. split; [|exact E5]. rewrite E4, map_app, <- app_assoc. reflexivity.
Qed.

Lemma combination_length states p : combination states p -> length p = length states.
Proof. intros H. induction H; cbn; auto. Qed.

Lemma disaggregate_chunk_spec argsort c mains : (forall l, sorts (argsort l) l) -> good c -> c_model c <> [] -> 100 <= length mains ->
  exists f, disaggregate_chunk argsort c mains = (full c, Ok f) /\ estimates (c_model c) mains f.
Proof.
  intros HA HG Hne HL. unfold disaggregate_chunk. destruct (c_model c) as [|e0 l0] eqn:Em; [contradiction|]. rewrite <- Em in *.
  replace (length mains <? MIN_CHUNK_LENGTH) with false by (symmetry; apply Nat.ltb_ge; exact HL).
  rewrite (set_combos_full c HG). cbn [full c_combos c_model].
  destruct HG as (ND & HS & _). set (states := map e_states (c_model c)).
  assert (HS' : Forall (fun s => s <> []) states).
  { unfold states. rewrite Forall_forall in HS |- *. intros s Hs. apply in_map_iff in Hs. destruct Hs as (e & <- & He). auto. }
  set (rows := cartesian states). set (sums := map sumZ rows).
  assert (Hns : sums <> []) by (subst sums rows; pose proof (cartesian_nonempty states HS'); destruct (cartesian states); [contradiction|discriminate]).
  destruct (find_nearest_spec sums (argsort sums) mains (HA sums) Hns) as (fnd & E & F). rewrite E. cbn [bind].
  assert (P : exists picks, Forall2 (fun ix p => nth_error rows ix = Some p) (map fst fnd) picks /\ Forall2 (best states) mains picks).
  { clear E HL. subst sums. induction F as [|t o mains' fnd Ho F IH]; [exists []; split; constructor|].
    destruct IH as (picks & P1 & P2). destruct Ho as (x & Hx & Ho). rewrite nth_error_map in Hx. destruct (nth_error rows (fst o)) as [p|] eqn:Ep; [|discriminate].
    injection Hx as <-. exists (p :: picks). split; constructor; auto. split; [apply cartesian_spec; eapply nth_error_In; exact Ep|].
    intros p' Hp'. apply cartesian_spec in Hp'. assert (Hs : In (sumZ p') (map sumZ rows)) by (apply in_map; exact Hp').
    destruct t as [v|]; destruct Ho as [Ho _].
    - destruct Ho as (x & Hx & Ho). rewrite nth_error_map, Ep in Hx. injection Hx as <-. apply Ho. exact Hs.
    - apply Ho. exact Hs. }
  destruct P as (picks & P1 & P2).
  destruct (predict_columns_spec rows picks (map fst fnd) (length (c_model c)) P1) with (l := c_model c) (i := 0) (d := @nil (meter * list Z)) as (f & Ef & Ff & Cf).
  - clear -P2. induction P2 as [|t p ts ps H _ IH]; constructor; [|exact IH]. destruct H as [H _]. apply combination_length in H. rewrite H. apply map_length.
  - reflexivity.
  - reflexivity.
  - exact ND.
  - intros [|j] m col H; discriminate.
  - exists f. split; [rewrite Ef; reflexivity|]. split; [exact Ff|]. exists picks. split; [exact P2|exact Cf].
Qed.

(** ** The store *)

Lemma key_eqb_spec a b : key_eqb a b = true <-> a = b.
Proof. destruct a, b. unfold key_eqb. cbn. rewrite andb_true_iff, !Z.eqb_eq. split; [intros [-> ->]; reflexivity|]. intros H. injection H. auto. Qed.

Lemma layout_eqb_spec a b : layout_eqb a b = true <-> a = b.
Proof.
  destruct a as [[p t] d], b as [[p' t'] d']. unfold layout_eqb, column_eqb. cbn. rewrite !andb_true_iff, !String.eqb_eq.
  split; [intros [[-> ->] H]; destruct d, d'; try discriminate; reflexivity|]. intros H. injection H as -> -> ->. destruct d'; auto.
Qed.

Lemma lookup_cons k k' t l : lookup k ((k', t) :: l) = if key_eqb k k' then Some t else lookup k l.
Proof. unfold lookup. cbn [find fst]. destruct (key_eqb k k'); reflexivity. Qed.

Lemma add_rows_spec l k lay rows : (forall t, lookup k l = Some t -> fst t = lay) ->
  exists l', add_rows l k lay rows = Ok l' /\
    lookup k l' = Some (lay, match lookup k l with Some t => snd t | None => [] end ++ rows) /\
    forall k', k' <> k -> lookup k' l' = lookup k' l.
Proof.
  induction l as [|[k0 [lay0 rows0]] l IH]; intros H; cbn [add_rows].
  - exists [(k, (lay, rows))]. split; [reflexivity|]. split.
    + rewrite lookup_cons. replace (key_eqb k k) with true by (symmetry; apply key_eqb_spec; reflexivity). reflexivity.
    + intros k' Hk. rewrite lookup_cons. destruct (key_eqb k' k) eqn:E; [apply key_eqb_spec in E; contradiction|reflexivity].
  - rewrite lookup_cons in H. destruct (key_eqb k k0) eqn:E.
    + apply key_eqb_spec in E. subst k0. specialize (H _ eq_refl). cbn in H. subst lay0. 
      replace (layout_eqb lay lay) with true by (symmetry; apply layout_eqb_spec; reflexivity).
      eexists. split; [reflexivity|]. rewrite !lookup_cons. replace (key_eqb k k) with true by (symmetry; apply key_eqb_spec; reflexivity).
      split; [reflexivity|]. intros k' Hk. rewrite !lookup_cons. destruct (key_eqb k' k) eqn:E'; [apply key_eqb_spec in E'; contradiction|reflexivity].
    + destruct (IH H) as (l' & E1 & E2 & E3). rewrite E1. cbn [bind]. eexists. split; [reflexivity|]. rewrite !lookup_cons, E. split; [exact E2|].
      intros k' Hk. rewrite !lookup_cons. destruct (key_eqb k' k0); [reflexivity|]. apply E3. exact Hk.
Qed.

Lemma append_spec st k lay rows : accepts st k lay ->
  exists st', append st k lay rows = Ok st' /\ st_root st' = st_root st /\ st_buildings st' = st_buildings st /\
    lookup k (st_tables st') = Some (lay, rows_at k st ++ rows) /\
    forall k', k' <> k -> lookup k' (st_tables st') = lookup k' (st_tables st).
Proof.
  intros H. unfold append. destruct (add_rows_spec (st_tables st) k lay rows H) as (l' & E1 & E2 & E3). rewrite E1. cbn [bind].
  eexists. split; [reflexivity|]. cbn [st_root st_buildings st_tables]. auto.
Qed.

Lemma add_rows_mismatch l k lay rows t : lookup k l = Some t -> fst t <> lay -> add_rows l k lay rows = Err ValueError.
Proof.
  induction l as [|[k0 [lay0 rows0]] l IH]; intros H Hn; [discriminate|]. rewrite lookup_cons in H. cbn [add_rows]. destruct (key_eqb k k0).
  - injection H as <-. cbn in Hn. destruct (layout_eqb lay lay0) eqn:E; [apply layout_eqb_spec in E; congruence|reflexivity].
  - rewrite (IH H Hn). reflexivity.
Qed.

Lemma rows_at_other k st st' : lookup k (st_tables st') = lookup k (st_tables st) -> rows_at k st' = rows_at k st.
Proof. unfold rows_at. intros ->. reflexivity. Qed.

Lemma accepts_other k lay st st' : lookup k (st_tables st') = lookup k (st_tables st) -> accepts st k lay -> accepts st' k lay.
Proof. unfold accepts. intros ->. auto. Qed.

(** ** Writing one chunk *)

Lemma write_appliances_spec b ch powers : forall l i st, i + length l <= length powers -> NoDup (map inst l) ->
  (forall e, In e l -> accepts st (b, inst e) (ch_name ch, float32)) ->
  exists st', write_appliances st b ch powers i l = (st', None) /\ st_root st' = st_root st /\ st_buildings st' = st_buildings st /\
    (forall j e, nth_error l j = Some e ->
       lookup (b, inst e) (st_tables st') = Some ((ch_name ch, float32), rows_at (b, inst e) st ++ series (i + j) ch powers)) /\
    forall k, ~ In k (map (fun e => (b, inst e)) l) -> lookup k (st_tables st') = lookup k (st_tables st).
Proof.
  induction l as [|e l IH]; intros i st HL ND HA; cbn [write_appliances].
  { exists st. repeat split; auto. intros [|j] e H; discriminate. }
  cbn [length] in HL. destruct (nth_error powers i) as [[m col]|] eqn:Ep; [|apply nth_error_None in Ep; lia].
  destruct (append_spec st (b, inst e) (ch_name ch, float32) (combine (map fst (ch_rows ch)) (map Some col)) (HA e (or_introl eq_refl)))
    as (st1 & E1 & R1 & B1 & L1 & O1). unfold inst in E1 at 1. rewrite E1. cbn [map] in ND. apply NoDup_cons_iff in ND. destruct ND as [Hn ND].
  assert (Hd : forall e', In e' l -> (b, inst e') <> (b, inst e)).
  { intros e' He' H. injection H as H. apply Hn. rewrite <- H. apply in_map. exact He'. }
  destruct (IH (S i) st1) as (st2 & E2 & R2 & B2 & L2 & O2); [lia|exact ND| |].
  { intros e' He'. eapply accepts_other; [apply O1, Hd, He'|]. apply HA. right. exact He'. }
  exists st2. split; [exact E2|]. split; [congruence|]. split; [congruence|]. split.
  - intros [|j] e' Hj; cbn [nth_error] in Hj.
    + injection Hj as <-. rewrite O2, L1.
      * unfold series. rewrite Nat.add_0_r, Ep. reflexivity.
      * intros Hin. apply in_map_iff in Hin. destruct Hin as (e' & H & He'). apply (Hd e' He'). exact H.
    + rewrite (L2 _ _ Hj). assert (He' := nth_error_In _ _ Hj). rewrite (rows_at_other _ _ _ (O1 _ (Hd _ He'))). replace (i + S j) with (S i + j) by lia. reflexivity.
  - intros k Hk. cbn [map] in Hk. rewrite O2 by (intros H; apply Hk; right; exact H). apply O1. intros ->. apply Hk. left. reflexivity.
Qed.

Lemma full_idem c : full (full c) = full c.
Proof. reflexivity. Qed.

Lemma step_long argsort b c st fr me ch name dt : (forall l, sorts (argsort l) l) -> good c -> c_model c <> [] -> own_keys c ->
  is_long ch = true -> fits c b st name dt [ch] ->
  exists f st', step argsort b (mk_run c st fr me) ch = (mk_run (full c) st' (fr ++ [ch_frame ch]) (Some name), None) /\
    estimates (c_model c) (map snd (ch_rows ch)) f /\ st_root st' = st_root st /\ st_buildings st' = st_buildings st /\
    written c b st [ch] [f] st' /\ fits c b st' name dt [].
Proof.
  intros HA HG Hne [ND H1] HL (HF1 & HF2 & HF3). unfold is_long in HL. apply Nat.leb_le in HL.
  apply Forall_cons_iff in HF1. destruct HF1 as [HF1 _]. destruct HF1 as [Hname Hdt]; [unfold is_long; apply Nat.leb_le; exact HL|].
  unfold step. cbn [ru_co ru_store ru_frames ru_measure]. replace (length (ch_rows ch) <? MIN_CHUNK_LENGTH) with false by (symmetry; apply Nat.ltb_ge; exact HL).
  destruct (disaggregate_chunk_spec argsort c (map snd (ch_rows ch)) HA HG Hne) as (f & Ef & Hf); [rewrite map_length; exact HL|].
  rewrite Ef. cbn [c_model full].
  destruct (write_appliances_spec b ch f (c_model c) 0 st) as (st1 & E1 & R1 & B1 & L1 & O1).
  { destruct Hf as [Hf _]. apply (f_equal (@length _)) in Hf. rewrite !map_length in Hf. lia. }
  { exact ND. }
  { rewrite Hname. exact HF2. }
  rewrite E1. assert (Hk1 : ~ In (b, 1%Z) (map (fun e => (b, inst e)) (c_model c))).
  { intros H. apply in_map_iff in H. destruct H as (e & H & He). injection H as H. apply H1. rewrite <- H. apply in_map. exact He. }
  destruct (append_spec st1 (b, 1%Z) (ch_name ch, ch_dtype ch) (ch_rows ch)) as (st2 & E2 & R2 & B2 & L2 & O2).
  { rewrite Hname, Hdt. eapply accepts_other; [apply O1; exact Hk1|exact HF3]. }
  rewrite E2. exists f, st2. rewrite Hname. split; [reflexivity|]. split; [exact Hf|]. split; [congruence|]. split; [congruence|].
  assert (K : forall e, In e (c_model c) -> (b, inst e) <> (b, 1%Z)).
  { intros e He H. apply Hk1. rewrite <- H. apply in_map_iff. exists e. auto. }
  split; [split; [|split]|split; [|split]].
  - intros i e Hi. assert (He := nth_error_In _ _ Hi). unfold rows_at at 1. rewrite (O2 _ (K _ He)), (L1 _ _ Hi). cbn [snd all_series]. rewrite app_nil_r. reflexivity.
  - unfold rows_at at 1. rewrite L2. cbn [snd flat_map]. rewrite app_nil_r. f_equal. apply rows_at_other. apply O1. exact Hk1.
  - intros k Hk Hk'. rewrite O2 by exact Hk. apply O1. exact Hk'.
  - constructor.
  - intros e He t Ht. rewrite (O2 _ (K _ He)) in Ht. destruct (In_nth_error _ _ He) as [i Hi]. rewrite (L1 _ _ Hi) in Ht. injection Ht as <-. cbn. rewrite Hname. reflexivity.
  - intros t Ht. rewrite L2 in Ht. injection Ht as <-. cbn. rewrite Hname, Hdt. reflexivity.
Qed.

Lemma written_trans c b st a fa st1 d fd st2 : length a = length fa -> written c b st a fa st1 -> written c b st1 d fd st2 ->
  written c b st (a ++ d) (fa ++ fd) st2.
Proof.
  intros HL (A1 & A2 & A3) (B1 & B2 & B3). split; [|split].
  - intros i e Hi. rewrite (B1 i e Hi), (A1 i e Hi), <- app_assoc. f_equal. clear -HL. revert fa HL. induction a as [|x a IH]; intros [|y fa] HL; try discriminate; cbn; [reflexivity|].
    rewrite <- app_assoc. f_equal. apply IH. injection HL as HL. exact HL.
  - rewrite B2, A2, flat_map_app, <- app_assoc. reflexivity.
  - intros k H1 H2. rewrite B3, A3; auto.
Qed.

Lemma own_keys_full c : own_keys c -> own_keys (full c).
Proof. intros H. exact H. Qed.

Lemma written_nil c b st : written c b st [] [] st.
Proof. split; [|split]; intros; cbn; rewrite ?app_nil_r; reflexivity. Qed.

Lemma steps_spec argsort b name dt e : (forall l, sorts (argsort l) l) -> forall chs c st fr me, good c -> c_model c <> [] -> own_keys c ->
  fits c b st name dt chs ->
  let long := filter is_long chs in
  exists c' fs st' me', steps argsort b (mk_run c st fr me) chs e = (mk_run c' st' (fr ++ map ch_frame long) me', e) /\
    c_model c' = c_model c /\ Forall2 (fun ch f => estimates (c_model c) (map snd (ch_rows ch)) f) long fs /\
    st_root st' = st_root st /\ st_buildings st' = st_buildings st /\ written c b st long fs st' /\
    me' = match long with [] => me | _ :: _ => Some name end /\ (long = [] -> st' = st).
Proof.
  intros HA. induction chs as [|ch chs IH]; intros c st fr me HG Hne HO HF; cbn zeta.
  { exists c, [], st, me. cbn. rewrite app_nil_r. split; [reflexivity|]. do 4 (split; [constructor|]). split; [apply written_nil|]. auto. }
  cbn [steps filter]. destruct HF as (HF1 & HF2 & HF3). apply Forall_cons_iff in HF1. destruct HF1 as [HF1 HF1'].
  destruct (is_long ch) eqn:El.
  - destruct (step_long argsort b c st fr me ch name dt HA HG Hne HO El) as (f & st1 & E1 & Hf & R1 & B1 & W1 & (_ & G2 & G3)).
    { split; [constructor; [auto|constructor]|auto]. }
    rewrite E1. destruct (IH (full c) st1 (fr ++ [ch_frame ch]) (Some name) (good_full c HG)) as (c' & fs & st2 & me' & E2 & M2 & F2 & R2 & B2 & W2 & Me2 & _).
    { exact Hne. } { exact HO. } { split; [exact HF1'|split; assumption]. }
    exists c', (f :: fs), st2, me'. rewrite <- app_assoc in E2. split; [exact E2|]. split; [exact M2|]. split; [constructor; assumption|].
    split; [congruence|]. split; [congruence|]. split; [|split].
    + apply (written_trans c b st [ch] [f] st1 (filter is_long chs) fs st2 eq_refl W1 W2).
    + rewrite Me2. destruct (filter is_long chs); reflexivity.
    + discriminate.
  - assert (Es : step argsort b (mk_run c st fr me) ch = (mk_run c st fr me, None)).
    { unfold step. unfold is_long in El. apply Nat.leb_gt in El. replace (length (ch_rows ch) <? MIN_CHUNK_LENGTH) with true by (symmetry; apply Nat.ltb_lt; exact El). reflexivity. }
    rewrite Es. apply IH; auto. split; [exact HF1'|split; assumption].
Qed.
