(** Whole runs, metadata and training of the disaggregator of LcoModel.v. *)
From Coq Require Import String.
From Verif Require Import Base TimeFrameModel TimeFrameSpec TimeFrameProofs NearestModel NearestSpec NearestProofs LcoModel LcoSpec LcoProofs.
Import List.
Open Scope list_scope.
Open Scope nat_scope.

Lemma estimates_spec argsort c mains : (forall l, sorts (argsort l) l) -> reachable c -> c_model c <> [] -> 100 <= length mains ->
  exists f, snd (disaggregate_chunk argsort c mains) = Ok f /\ c_model (fst (disaggregate_chunk argsort c mains)) = c_model c /\
    estimates (c_model c) mains f.
Proof.
  intros HA HR Hne HL. destruct (disaggregate_chunk_spec argsort c mains HA (reachable_good c HR) Hne HL) as (f & E & H). rewrite E. exists f. auto.
Qed.

Lemma chunk_errors argsort c mains : c_model c = [] \/ length mains < 100 -> disaggregate_chunk argsort c mains = (c, Err RuntimeError).
Proof.
  unfold disaggregate_chunk. destruct (c_model c); [reflexivity|]. intros [H|H]; [discriminate|].
  replace (length mains <? MIN_CHUNK_LENGTH) with true by (symmetry; apply Nat.ltb_lt; exact H). reflexivity.
Qed.

(** ** Whole runs *)

Lemma save_tables st p m fr b ms st' : save_metadata st p m fr b ms = Ok st' -> st_tables st' = st_tables st.
Proof.
  unfold save_metadata. destruct (merge_timeframes fr p) as [r|]; [|discriminate]. cbn [bind]. destruct r as [|a r]; [discriminate|].
  destruct (last_opt (a :: r)); [|discriminate]. destruct (mk _ _); [|discriminate]. cbn [bind]. intros [= <-]. reflexivity.
Qed.

Lemma written_tables c b st chs fs st1 st2 : st_tables st2 = st_tables st1 -> written c b st chs fs st1 -> written c b st chs fs st2.
Proof. unfold written, rows_at. intros ->. auto. Qed.

Lemma output_spec argsort c b chs e rs sp st name dt : (forall l, sorts (argsort l) l) -> reachable c -> c_model c <> [] -> own_keys c ->
  fits c b st name dt chs ->
  let long := filter is_long chs in
  exists fs, Forall2 (fun ch f => estimates (c_model c) (map snd (ch_rows ch)) f) long fs /\
    exists c' st' x, disaggregate argsort c b (chs, e) rs sp st = (c', st', x) /\ c_model c' = c_model c /\ written c b st long fs st' /\
      (e <> None -> x = e) /\
      (e <> None \/ long = [] -> st_root st' = st_root st /\ st_buildings st' = st_buildings st) /\
      (e = None -> long = [] -> st' = st /\ x = None).
Proof.
  intros HA HR Hne HO HF long. pose proof (reachable_good c HR) as HG.
  destruct (steps_spec argsort b name dt e HA chs c st [] None HG Hne HO HF) as (c1 & fs & st1 & me & E & M & F & R & B & W & Me & Hnil).
  fold long in E, F, W, Me, Hnil. exists fs. split; [exact F|]. unfold disaggregate. destruct (c_model c) as [|e0 l0] eqn:Em; [contradiction|]. rewrite <- Em in *.
  cbn [fst snd]. rewrite E. cbn [ru_co ru_store ru_frames ru_measure]. destruct e as [x|].
  { exists c1, st1, (Some x). split; [reflexivity|]. split; [exact M|]. split; [exact W|]. split; [auto|]. split; [auto|]. discriminate. }
  destruct long as [|ch l] eqn:EL.
  - subst me. exists c1, st1, None. split; [reflexivity|]. split; [exact M|]. split; [exact W|]. split; [congruence|]. auto.
  - subst me. destruct (save_metadata _ _ _ _ _ _) as [st2|x] eqn:Es.
    + exists c1, st2, None. split; [reflexivity|]. split; [exact M|]. split; [eapply written_tables; [|exact W]; eapply save_tables; exact Es|].
      split; [congruence|]. split; [|discriminate]. intros [H|H]; [congruence|discriminate].
    + exists c1, st1, (Some x). split; [reflexivity|]. split; [exact M|]. split; [exact W|]. split; [congruence|]. split; [auto|discriminate].
Qed.

Lemma untrained argsort c b mains rs sp st : c_model c = [] -> disaggregate argsort c b mains rs sp st = (c, st, Some RuntimeError).
Proof. unfold disaggregate. intros ->. reflexivity. Qed.

(** ** Metadata *)

Lemma last_opt_snoc {A} (l : list A) x : last_opt (l ++ [x]) = Some x.
Proof. induction l as [|a [|b l] IH]; [reflexivity|reflexivity|]. exact IH. Qed.

Lemma last_opt_cons {A} (a b : A) l : last_opt (a :: b :: l) = last_opt (b :: l).
Proof. reflexivity. Qed.

Lemma merge_ends gap : (0 <= gap)%Z -> forall l done cur cs ce,
  bounded cur cs ce -> Forall is_bounded l -> in_order (cur :: l) ->
  exists r h z, merge_loop done cur l gap = Ok (rev done ++ r) /\ hd_error r = Some h /\ last_opt r = Some z /\
    tf_start h = Some cs /\ tf_end z = match last_opt l with Some t => tf_end t | None => Some ce end /\ (cs < match tf_end z with Some v => v | None => cs end)%Z.
Proof.
  intros Hg. induction l as [|t l IH]; intros done cur cs ce Hc Hl Ho.
  { exists [cur], cur, cur. cbn. destruct Hc as (H1 & H2 & H3 & H4). rewrite H1, H2. auto 10. }
  apply Forall_cons_iff in Hl. destruct Hl as [(ts & te & Ht) Hl]. destruct Ho as [Hce Ho].
  assert (Hle : (ce <= ts)%Z) by (apply Hce; [apply Hc|apply Ht]). assert (Hts : (ts < te)%Z) by apply Ht. assert (Hcs : (cs < ce)%Z) by apply Hc.
  cbn [merge_loop]. rewrite (adjacent_bounded _ _ _ _ _ _ _ Ht Hc Hg). cbn [bind].
  assert (Hlast : match last_opt l with Some t0 => tf_end t0 | None => Some te end = match last_opt (t :: l) with Some t0 => tf_end t0 | None => Some ce end).
  { destruct l as [|t2 l]; [cbn; symmetry; apply Ht|]. rewrite last_opt_cons. destruct (last_opt (t2 :: l)) eqn:E; [reflexivity|]. exfalso. clear -E. revert t2 E. induction l as [|x l IHl]; intros t2 E; [discriminate|]. exact (IHl x E). }
  destruct (_ || _)%bool.
  - rewrite (union_bounded _ _ _ _ _ _ Ht Hc). cbn [bind]. replace (Z.min ts cs) with cs by lia. replace (Z.max te ce) with te by lia.
    set (u := mkTF (Some cs) (Some te) true false false).
    assert (Hu : bounded u cs te) by (repeat split; lia).
    destruct (IH done u cs te Hu Hl) as (r & h & z & E1 & E2 & E3 & E4 & E5 & E6).
    { destruct l as [|t2 l]; cbn; auto. destruct Ho as [H1 H2]. split; auto. intros e s He Hs. apply (H1 e s); auto. injection He as <-. apply Ht. }
    exists r, h, z. rewrite <- Hlast. auto 10.
  - destruct (IH (cur :: done) t ts te Ht Hl Ho) as (r & h & z & E1 & E2 & E3 & E4 & E5 & E6).
    exists (cur :: r), cur, z. cbn [rev] in E1. rewrite <- app_assoc in E1. split; [exact E1|]. split; [reflexivity|]. split; [destruct r; [discriminate|exact E3]|].
    split; [apply Hc|]. rewrite <- Hlast. split; [exact E5|]. destruct (tf_end z); lia.
Qed.

Lemma last_opt_some {A} (a : A) l : exists z, last_opt (a :: l) = Some z.
Proof. revert a. induction l as [|b l IH]; intros a; [exists a; reflexivity|]. exact (IH b). Qed.

Lemma save_spec st p m fr b ms first last : (0 <= p)%Z -> Forall is_bounded fr -> in_order fr -> hd_error fr = Some first -> last_opt fr = Some last ->
  let frame := (tf_start first, tf_end last) in
  save_metadata st p m fr b ms = Ok (mk_store (st_tables st) (Some (mk_rmeta p m frame)) (dict_set (st_buildings st) b (building_meta b frame ms))).
Proof.
  intros Hp HB HO Hf Hl. destruct fr as [|a fr]; [discriminate|]. injection Hf as ->. unfold save_metadata.
  pose proof HB as HB0. apply Forall_cons_iff in HB0. destruct HB0 as [(s & e & Ha) HB']. assert (Ha' := Ha). destruct Ha as (A1 & A2 & A3 & A4).
  assert (K : exists h r z, merge_timeframes (first :: fr) p = Ok (h :: r) /\ last_opt (h :: r) = Some z /\ tf_start h = Some s /\ tf_end z = tf_end last /\ exists ez, tf_end z = Some ez /\ (s < ez)%Z).
  { destruct fr as [|b0 fr].
    - exists first, [], first. cbn in Hl. injection Hl as <-. split; [reflexivity|]. split; [reflexivity|]. split; [exact A1|]. split; [reflexivity|]. exists e. auto.
    - destruct (merge_ends p Hp (b0 :: fr) [] first s e Ha' HB' HO) as (r & h & z & E1 & E2 & E3 & E4 & E5 & E6). cbn [rev List.app] in E1.
      destruct r as [|h0 r]; [discriminate|]. injection E2 as ->. exists h, r, z. split; [exact E1|]. split; [exact E3|]. split; [exact E4|].
      rewrite last_opt_cons in Hl. rewrite Hl in E5. split; [exact E5|]. destruct (tf_end z) as [ez|]; [exists ez; auto|lia]. }
  destruct K as (h & r & z & E1 & E2 & E3 & E4 & ez & E5 & E6). rewrite E1. cbn [bind]. rewrite E2, E3, E5. unfold mk, set_start, set_end. cbn.
  replace (ez <=? s)%Z with false by lia. cbn. rewrite A1, <- E4, E5. reflexivity.
Qed.

Lemma get_meta_set {V} (d : list (Z * V)) k v k' : get_meta k' (dict_set d k v) = if (k' =? k)%Z then Some v else get_meta k' d.
Proof.
  unfold get_meta. induction d as [|[k0 v0] d IH]; cbn [dict_set find fst].
  - destruct (k' =? k)%Z; reflexivity.
  - destruct (Z.eqb_spec k k0) as [->|Hn]; cbn [find fst].
    + destruct (k' =? k0)%Z eqn:E; reflexivity.
    + destruct (k' =? k0)%Z eqn:E0; [|exact IH]. apply Z.eqb_eq in E0. subst k'. replace (k0 =? k)%Z with false by lia. reflexivity.
Qed.

Lemma meters_meta b frame ms : forall d, NoDup (map (fun m => id_instance (m_id m)) ms) ->
  let d' := fold_left (fun d m => dict_set d (id_instance (m_id m)) (submeter_meta b frame m)) ms d in
  (forall m, In m ms -> get_meta (id_instance (m_id m)) d' = Some (submeter_meta b frame m)) /\
  forall i, ~ In i (map (fun m => id_instance (m_id m)) ms) -> get_meta i d' = get_meta i d.
Proof.
  induction ms as [|m ms IH]; intros d ND; cbn [fold_left map]; [split; [intros m []|auto]|].
  cbn [map] in ND. apply NoDup_cons_iff in ND. destruct ND as [Hn ND].
  destruct (IH (dict_set d (id_instance (m_id m)) (submeter_meta b frame m)) ND) as [H1 H2]. split.
  - intros m' [<-|H]; [|apply H1; exact H]. rewrite H2 by exact Hn. rewrite get_meta_set, Z.eqb_refl. reflexivity.
  - intros i Hi. cbn in Hi. rewrite H2 by tauto. rewrite get_meta_set. replace (i =? id_instance (m_id m))%Z with false; [reflexivity|]. symmetry. apply Z.eqb_neq. intros ->. tauto.
Qed.

Lemma metadata_spec argsort c b chs rs sp st name dt : (forall l, sorts (argsort l) l) -> reachable c -> c_model c <> [] -> own_keys c ->
  fits c b st name dt chs -> (0 <= sample_period rs sp)%Z ->
  let long := filter is_long chs in
  forall first last, hd_error long = Some first -> last_opt long = Some last ->
  Forall is_bounded (map ch_frame long) -> in_order (map ch_frame long) ->
  let frame := (tf_start (ch_frame first), tf_end (ch_frame last)) in
  exists c' st' bm, disaggregate argsort c b (chs, None) rs sp st = (c', st', None) /\
    st_root st' = Some (mk_rmeta (sample_period rs sp) name frame) /\
    get_meta b (st_buildings st') = Some bm /\ (forall b', b' <> b -> get_meta b' (st_buildings st') = get_meta b' (st_buildings st)) /\
    get_meta 1%Z (b_meters bm) = Some (mk_mmeta true None (b, 1%Z) None frame) /\
    (forall e, In e (c_model c) -> exists n, (n = m_name (e_meter e) \/ m_name (e_meter e) = Some EmptyString /\ n = None) /\
       get_meta (inst e) (b_meters bm) = Some (mk_mmeta false (Some 1%Z) (b, inst e) n frame)) /\
    (forall i, i <> 1%Z -> ~ In i (map inst (c_model c)) -> get_meta i (b_meters bm) = None) /\
    (forall x, In x (b_apps bm) <-> exists e a, In e (c_model c) /\ In a (m_apps (e_meter e)) /\ x = ([inst e], ap_type a, ap_instance a)).
Proof.
  intros HA HR Hne HO HF Hp long first last Hf Hl HB Hord frame. pose proof (reachable_good c HR) as HG.
  destruct (steps_spec argsort b name dt None HA chs c st [] None HG Hne HO HF) as (c1 & fs & st1 & me & E & M & F & R & B & W & Me & Hnil).
  fold long in E, F, W, Me, Hnil. unfold disaggregate. destruct (c_model c) as [|e0 l0] eqn:Em; [contradiction|]. rewrite <- Em in *.
  cbn [fst snd]. rewrite E. cbn [ru_co ru_store ru_frames ru_measure]. destruct long as [|ch l] eqn:EL; [discriminate|]. subst me. cbn [List.app].
  assert (Hf' : hd_error (map ch_frame (ch :: l)) = Some (ch_frame first)) by (injection Hf as ->; reflexivity).
  assert (Hl' : last_opt (map ch_frame (ch :: l)) = Some (ch_frame last)).
  { clear -Hl. revert ch Hl. induction l as [|x l IH]; intros ch Hl; [injection Hl as ->; reflexivity|]. exact (IH x Hl). }
  rewrite (save_spec st1 _ name _ b (map e_meter (c_model c1)) _ _ Hp HB Hord Hf' Hl'). fold frame. rewrite M.
  set (ms := map e_meter (c_model c)). assert (Hinst : map (fun m => id_instance (m_id m)) ms = map inst (c_model c)) by (unfold ms; rewrite map_map; reflexivity).
  exists c1. eexists. exists (building_meta b frame ms). split; [reflexivity|]. cbn [st_root st_buildings]. split; [reflexivity|].
  split; [rewrite get_meta_set, Z.eqb_refl; reflexivity|]. split; [intros b' Hb'; rewrite get_meta_set; replace (b' =? b)%Z with false by lia; rewrite B; reflexivity|].
  unfold building_meta. cbn [b_meters b_apps]. destruct HO as [ND H1].
  destruct (meters_meta b frame ms [(1%Z, mk_mmeta true None (b, 1%Z) None frame)]) as [K1 K2]; [rewrite Hinst; exact ND|].
  split; [rewrite K2 by (rewrite Hinst; exact H1); reflexivity|]. split; [|split].
  - intros e He. assert (Hm : In (e_meter e) ms) by (apply in_map; exact He). specialize (K1 _ Hm). unfold submeter_meta in K1 at 2.
    destruct (m_name (e_meter e)) as [[|]|] eqn:En; (eexists; split; [|exact K1]); auto.
  - intros i Hi Hin. rewrite K2 by (rewrite Hinst; exact Hin). unfold get_meta. cbn [find fst]. destruct (i =? 1)%Z eqn:Ei; [lia|reflexivity].
  - intros x. rewrite in_flat_map. split.
    + intros (m & Hm & Hx). apply in_map_iff in Hm. destruct Hm as (e & <- & He). apply in_map_iff in Hx. destruct Hx as (a & <- & Ha). exists e, a. auto.
    + intros (e & a & He & Ha & ->). exists (e_meter e). split; [apply in_map; exact He|]. apply in_map_iff. exists a. auto.
Qed.

(** ** Training *)

Lemma train_loop_ok C (cluster : C -> Z -> option Z -> res (list Z)) k ns : forall subs sts c,
  NoDup (map (fun e => m_id (e_meter e)) (c_model c) ++ map (fun p => m_id (fst p)) subs) ->
  Forall2 (fun p s => exists ch rest, snd p = (ch :: rest, None) /\ cluster ch k (option_map (fun n => (n - 1)%Z) (ns (fst p))) = Ok s) subs sts ->
  train_loop cluster c k ns subs = (mk_co (c_model c ++ map (fun q => mk_entry (snd q) (fst (fst q))) (combine subs sts)) (c_combos c), None).
Proof.
  induction subs as [|[m g] subs IH]; intros sts c ND F; inversion F as [|? s ? sts' H F']; subst; clear F.
  { cbn. rewrite app_nil_r. destruct c. reflexivity. }
  destruct H as (ch & rest & Eg & Es). cbn in Eg, Es. subst g. cbn [train_loop]. unfold train_on_chunk.
  assert (Hx : existsb (meter_eqb m) (map e_meter (c_model c)) = false).
  { destruct (existsb _ _) eqn:Ex; [|reflexivity]. exfalso. apply existsb_exists in Ex. destruct Ex as (m' & Hin & Eq). apply meter_eqb_spec in Eq.
    cbn [map fst] in ND. apply NoDup_remove_2 in ND. apply ND. apply in_or_app. left. rewrite Eq. apply in_map_iff in Hin. destruct Hin as (e & <- & He). apply in_map_iff. exists e. auto. }
  rewrite Hx. replace (match ns m with Some n => Some (n - 1)%Z | None => None end) with (option_map (fun n => (n - 1)%Z) (ns m)) by (destruct (ns m); reflexivity).
  rewrite Es. cbn [bind]. 
  assert (G := IH sts' (mk_co (c_model c ++ [mk_entry s m]) (c_combos c))). cbn [c_model c_combos] in G. rewrite map_app, <- app_assoc in G. specialize (G ND F').
  rewrite G. cbn [combine map]. rewrite <- app_assoc. cbn [fst snd List.app]. destruct rest; reflexivity.
Qed.

Lemma train_ok C (cluster : C -> Z -> option Z -> res (list Z)) n subs ns sts :
  NoDup (map (fun p => m_id (fst p)) subs) ->
  Forall2 (fun p s => exists ch rest, snd p = (ch :: rest, None) /\
    cluster ch (if 12 <? n then 2%Z else 3%Z) (option_map (fun n => (n - 1)%Z) (ns (fst p))) = Ok s) subs sts ->
  exists c, train cluster co_new n subs ns = (c, None) /\ map e_meter (c_model c) = map fst subs /\ map e_states (c_model c) = sts.
Proof.
  intros ND F. unfold train. cbn [co_new c_model]. rewrite (train_loop_ok C cluster _ ns subs sts co_new ND F). eexists. split; [reflexivity|]. cbn [c_model co_new List.app].
  clear ND. induction F as [|p s subs sts H F IH]; [auto|]. destruct IH as [I1 I2]. cbn [combine map]. rewrite I1, I2. auto.
Qed.

Lemma train_again C (cluster : C -> Z -> option Z -> res (list Z)) c n subs ns : c_model c <> [] -> train cluster c n subs ns = (c, Some RuntimeError).
Proof. unfold train. destruct (c_model c); [contradiction|reflexivity]. Qed.

(** ** Same column layout required *)

Lemma layout_error argsort c b ch chs e rs sp st en l t : (forall l, sorts (argsort l) l) -> reachable c -> c_model c = en :: l ->
  is_long ch = true -> lookup (b, inst en) (st_tables st) = Some t -> fst t <> (ch_name ch, float32) ->
  exists c', disaggregate argsort c b (ch :: chs, e) rs sp st = (c', st, Some ValueError).
Proof.
  intros HA HR Em HL Ht Hn. pose proof (reachable_good c HR) as HG. unfold is_long in HL. apply Nat.leb_le in HL.
  unfold disaggregate. rewrite Em. cbn [fst snd steps]. unfold step. cbn [ru_co ru_store ru_frames ru_measure].
  replace (length (ch_rows ch) <? MIN_CHUNK_LENGTH) with false by (symmetry; apply Nat.ltb_ge; exact HL).
  destruct (disaggregate_chunk_spec argsort c (map snd (ch_rows ch)) HA HG) as (f & Ef & Hf); [congruence|rewrite map_length; exact HL|].
  rewrite Ef. cbn [c_model full]. rewrite Em. cbn [write_appliances]. destruct Hf as [Hf _]. rewrite Em in Hf. destruct f as [|[m col] f]; [discriminate|].
  cbn [nth_error]. unfold append. fold (inst en). rewrite (add_rows_mismatch _ _ _ _ _ Ht Hn). cbn [bind]. eexists. reflexivity.
Qed.

(** ** What is lost *)

Lemma short_dropped argsort c b chs rs sp st : c_model c <> [] -> Forall (fun ch => length (ch_rows ch) < 100) chs ->
  disaggregate argsort c b (chs, None) rs sp st = (c, st, None).
Proof.
  intros Hne H. unfold disaggregate. destruct (c_model c); [contradiction|]. cbn [fst snd].
  assert (E : steps argsort b (mk_run c st [] None) chs None = (mk_run c st [] None, None)).
  { induction H as [|ch chs Hc H IH]; [reflexivity|]. cbn [steps]. unfold step. replace (length (ch_rows ch) <? MIN_CHUNK_LENGTH) with true by (symmetry; apply Nat.ltb_lt; exact Hc). exact IH. }
  rewrite E. reflexivity.
Qed.

Lemma train_failed C (cluster : C -> Z -> option Z -> res (list Z)) n m ch s m' subs ns n' subs' ns' :
  cluster ch (if 12 <? n then 2%Z else 3%Z) (option_map (fun n => (n - 1)%Z) (ns m)) = Ok s ->
  exists c, train cluster co_new n ((m, ([ch], None)) :: (m', ([], None)) :: subs) ns = (c, Some StopIteration) /\
    train cluster c n' subs' ns' = (c, Some RuntimeError).
Proof.
  intros H. unfold train at 1. cbn [co_new c_model train_loop]. unfold train_on_chunk. cbn [c_model map existsb co_new].
  replace (match ns m with Some n0 => Some (n0 - 1)%Z | None => None end) with (option_map (fun n => (n - 1)%Z) (ns m)) by (destruct (ns m); reflexivity).
  rewrite H. cbn [bind]. eexists. split; [reflexivity|]. reflexivity.
Qed.

Lemma metadata_period : forall argsort c b chs rs sp p st name dt, (forall l, sorts (argsort l) l) -> reachable c -> c_model c <> [] -> own_keys c ->
  fits c b st name dt chs -> asked_period rs sp p -> (0 <= p)%Z ->
  let long := filter is_long chs in
  forall first last, hd_error long = Some first -> last_opt long = Some last ->
  Forall is_bounded (map ch_frame long) -> in_order (map ch_frame long) ->
  let frame := (tf_start (ch_frame first), tf_end (ch_frame last)) in
  exists c' st' bm, disaggregate argsort c b (chs, None) rs sp st = (c', st', None) /\
    st_root st' = Some (mk_rmeta (p) name frame) /\
    get_meta b (st_buildings st') = Some bm /\ (forall b', b' <> b -> get_meta b' (st_buildings st') = get_meta b' (st_buildings st)) /\
    get_meta 1%Z (b_meters bm) = Some (mk_mmeta true None (b, 1%Z) None frame) /\
    (forall e, In e (c_model c) -> exists n, (n = m_name (e_meter e) \/ m_name (e_meter e) = Some EmptyString /\ n = None) /\
       get_meta (inst e) (b_meters bm) = Some (mk_mmeta false (Some 1%Z) (b, inst e) n frame)) /\
    (forall i, i <> 1%Z -> ~ In i (map inst (c_model c)) -> get_meta i (b_meters bm) = None) /\
    (forall x, In x (b_apps bm) <-> exists e a, In e (c_model c) /\ In a (m_apps (e_meter e)) /\ x = ([inst e], ap_type a, ap_instance a)).
Proof.
  intros argsort c b chs rs sp p st name dt HA HR Hne HO HF HP Hp.
  assert (E : sample_period rs sp = p) by (destruct HP as [-> | [[-> ->] | (-> & -> & ->)]]; reflexivity).
  subst p. exact (metadata_spec argsort c b chs rs sp st name dt HA HR Hne HO HF Hp).
Qed.
