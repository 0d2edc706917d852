(** Whole runs. *)
From Coq Require Import String QArith Sorted.
From Verif Require Import Base TimeFrameModel TimeFrameSpec LcoModel LcoSpec LcoProofs LcoProofs2 LfhModel LfhSpec LfhProofs.
Import List.
Open Scope list_scope.
Open Scope nat_scope.

Lemma pre_checks_ok {S} f (kw : kwargs S) : f_ind f <> [] ->
  pre_checks f kw = Ok (match k_resample kw with Some p => mk_kw None (Some p) (k_sections kw) | None => kw end).
Proof. unfold pre_checks. destruct (f_ind f); [contradiction|reflexivity]. Qed.

(** What [load_kwargs] holds after the defaults. *)
Lemma defaults_ok {S} (kw : kwargs S) p good : asked_period (k_resample kw) (k_period kw) p ->
  let kw' := with_defaults (match k_resample kw with Some p => mk_kw None (Some p) (k_sections kw) | None => kw end) good in
  kw' = mk_kw None (Some p) (Some (match k_sections kw with Some s => s | None => good end)).
Proof.
  destruct kw as [[r|] [q|] [s|]]; cbn; unfold asked_period, with_defaults; cbn; intros [H|[[H1 H2]|(H1 & H2 & H3)]]; try discriminate; congruence.
Qed.

Lemma disaggregate_eq {S} predict f b (m : mains S) kw st p good : f_ind f <> [] -> mn_good m = Ok good -> asked_period (k_resample kw) (k_period kw) p ->
  f_disaggregate predict f b m kw st =
  (let g := mn_power m (sections_of kw good) p in
   match f_steps predict f own_instance None b (mk_lrun st [] None None false) (fst g) (snd g) with
   | (s, Some x) => (l_store s, Some x)
   | (s, None) => f_finish p b (f_meters f) s
   end).
Proof.
  intros Hf Hg Hp. unfold f_disaggregate. rewrite (pre_checks_ok f kw Hf). cbn [bind]. rewrite Hg. cbn [bind].
  pose proof (defaults_ok kw p good Hp) as D. cbv zeta in D. rewrite D. reflexivity.
Qed.

Lemma own_targets ms : Forall2 (fun w t => own_instance w = Ok t) (map Trained ms) (map (fun m => Some (number m)) ms).
Proof. induction ms as [|m ms IH]; constructor; [reflexivity|exact IH]. Qed.

Lemma wrote_tables b targets st l fr st1 st2 : st_tables st2 = st_tables st1 -> wrote b targets st l fr st1 -> wrote b targets st l fr st2.
Proof. unfold wrote, rows_at. intros ->. auto. Qed.

Lemma finish_tables p b ms s : st_tables (fst (f_finish p b ms s)) = st_tables (l_store s).
Proof.
  unfold f_finish. destruct (l_avail s); [|reflexivity]. destruct (l_measure s); [|reflexivity].
  destruct (save_metadata _ _ _ _ _ _) eqn:E; [|reflexivity]. exact (save_tables _ _ _ _ _ _ _ E).
Qed.

Lemma run_output {S} predict f ms b (m : mains S) kw st p good chs e name dt : learnt f -> trained_on f ms -> mn_good m = Ok good ->
  asked_period (k_resample kw) (k_period kw) p -> mn_power m (sections_of kw good) p = (chs, e) ->
  let targets := map (fun m => Some (number m)) ms in
  apart targets -> ready predict f b st name None dt targets chs ->
  let long := filter is_long chs in
  exists frames st' x, f_disaggregate predict f b m kw st = (st', x) /\ Forall2 (estimated predict f) long frames /\ wrote b targets st long frames st' /\
    (e <> None -> x = e) /\
    (e <> None \/ long = [] -> st_root st' = st_root st /\ st_buildings st' = st_buildings st) /\
    (e = None -> long = [] -> st' = st /\ x = None).
Proof.
  intros HL HT Hg Hp Hpw targets HA HR long. rewrite (disaggregate_eq predict f b m kw st p good (proj1 HL) Hg Hp). rewrite Hpw. cbn [fst snd].
  assert (HTg : Forall2 (fun w t => own_instance w = Ok t) (map fst (f_ind f)) targets) by (unfold trained_on in HT; rewrite HT; apply own_targets).
  destruct (steps_ok predict f own_instance None b name dt targets e HL HTg HA chs (mk_lrun st [] None None false) HR) as (frs & s & E & EF & Fr & R & B & W & Z & N & _).
  fold long in EF, Fr, W, Z, N. cbv zeta. rewrite E. cbn [l_store l_frames] in *. destruct e as [x|].
  - exists frs, (l_store s), (Some x). split; [reflexivity|]. split; [exact EF|]. split; [exact W|]. split; [auto|]. split; [auto|]. discriminate.
  - exists frs. destruct (f_finish p b (f_meters f) s) as [st' x] eqn:Ef. exists st', x. split; [reflexivity|]. split; [exact EF|].
    split; [eapply wrote_tables; [|exact W]; pose proof (finish_tables p b (f_meters f) s) as K; rewrite Ef in K; exact K|]. split; [congruence|].
    split; [intros [H|H]; [congruence|]|intros _ H]; rewrite (Z H) in Ef; cbn in Ef; injection Ef as <- <-; auto.
Qed.

Lemma run_metadata {S} predict f ms b (m : mains S) kw st p good chs name dt : learnt f -> trained_on f ms -> f_meters f = ms -> mn_good m = Ok good ->
  asked_period (k_resample kw) (k_period kw) p -> mn_power m (sections_of kw good) p = (chs, None) ->
  let targets := map (fun m => Some (number m)) ms in
  apart targets -> ready predict f b st name None dt targets chs -> (0 <= p)%Z ->
  let long := filter is_long chs in
  forall first last, hd_error long = Some first -> last_opt long = Some last ->
  Forall is_bounded (map ch_frame long) -> in_order (map ch_frame long) ->
  let frame := (tf_start (ch_frame first), tf_end (ch_frame last)) in
  exists st' bm, f_disaggregate predict f b m kw st = (st', None) /\
    st_root st' = Some (mk_rmeta p name frame) /\
    get_meta b (st_buildings st') = Some bm /\ (forall b', b' <> b -> get_meta b' (st_buildings st') = get_meta b' (st_buildings st)) /\
    get_meta 1%Z (b_meters bm) = Some (mk_mmeta true None (b, 1%Z) None frame) /\
    (forall m, In m ms -> exists n, (n = m_name m \/ m_name m = Some EmptyString /\ n = None) /\
       get_meta (number m) (b_meters bm) = Some (mk_mmeta false (Some 1%Z) (b, number m) n frame)) /\
    (forall i, i <> 1%Z -> ~ In i (map number ms) -> get_meta i (b_meters bm) = None) /\
    (forall x, In x (b_apps bm) <-> exists m a, In m ms /\ In a (m_apps m) /\ x = ([number m], ap_type a, ap_instance a)).
Proof.
  intros HL HT Hms Hg Hp Hpw targets HA HR Hp0 long first last Hf Hl HB Hord frame. rewrite (disaggregate_eq predict f b m kw st p good (proj1 HL) Hg Hp). rewrite Hpw. cbn [fst snd].
  assert (HTg : Forall2 (fun w t => own_instance w = Ok t) (map fst (f_ind f)) targets) by (unfold trained_on in HT; rewrite HT; apply own_targets).
  destruct (steps_ok predict f own_instance None b name dt targets None HL HTg HA chs (mk_lrun st [] None None false) HR) as (frs & s & E & EF & Fr & R & B & W & Z & N & _).
  fold long in EF, Fr, W, Z, N. cbv zeta. rewrite E. cbn [l_store l_frames List.app] in *.
  assert (NE : long <> []) by (destruct long; [discriminate|congruence]). destruct (N NE) as (Me & Av & _). unfold f_finish. rewrite Av, Me, Fr.
  assert (Hf' : hd_error (map ch_frame long) = Some (ch_frame first)) by (clear -Hf; destruct long; [discriminate|injection Hf as ->; reflexivity]).
  assert (Hl' : last_opt (map ch_frame long) = Some (ch_frame last)).
  { clear -Hl. destruct long as [|ch l]; [discriminate|]. revert ch Hl. induction l as [|x l IH]; intros ch Hl; [injection Hl as ->; reflexivity|]. exact (IH x Hl). }
  rewrite (save_spec (l_store s) p name _ b (f_meters f) _ _ Hp0 HB Hord Hf' Hl'). fold frame. rewrite Hms.
  assert (ND : NoDup (map number ms) /\ ~ In 1%Z (map number ms)).
  { destruct HA as (HA1 & HA2 & _). unfold targets in *. split.
    - apply NoDup_nth_error. intros i j Hi Hij. apply nth_error_Some in Hi. destruct (nth_error (map number ms) i) as [z|] eqn:Ei; [|congruence]. symmetry in Hij.
      rewrite nth_error_map in Ei, Hij. apply (HA1 i j z); rewrite nth_error_map; [destruct (nth_error ms i)|destruct (nth_error ms j)]; cbn in *; congruence.
    - intros Hin. apply HA2. apply in_map_iff in Hin. destruct Hin as (x & Ex & Hx). apply in_map_iff. exists x. split; [congruence|exact Hx]. }
  destruct ND as [ND H1]. eexists. exists (building_meta b frame ms). split; [reflexivity|]. cbn [st_root st_buildings]. split; [reflexivity|].
  split; [rewrite get_meta_set, Z.eqb_refl; reflexivity|]. split; [intros b' Hb'; rewrite get_meta_set; replace (b' =? b)%Z with false by lia; rewrite B; reflexivity|].
  unfold building_meta. cbn [b_meters b_apps].
  destruct (meters_meta b frame ms [(1%Z, mk_mmeta true None (b, 1%Z) None frame)]) as [K1 K2]; [exact ND|].
  split; [rewrite K2 by exact H1; reflexivity|]. split; [|split].
  - intros x Hx. specialize (K1 _ Hx). unfold submeter_meta in K1 at 2.
    destruct (m_name x) as [[|]|] eqn:En; (eexists; split; [|exact K1]); auto.
  - intros i Hi Hin. rewrite K2 by exact Hin. unfold get_meta. cbn [find fst]. destruct (i =? 1)%Z eqn:Ei; [lia|reflexivity].
  - intros x. rewrite in_flat_map. split.
    + intros (y & Hy & Hx). apply in_map_iff in Hx. destruct Hx as (a & <- & Ha). exists y, a. auto.
    + intros (y & a & Hy & Ha & ->). exists y. split; [exact Hy|]. apply in_map_iff. exists a. auto.
Qed.

(** ** Errors *)

Lemma untrained_spec {S} predict f b (m : mains S) kw st : f_ind f = [] -> f_disaggregate predict f b m kw st = (st, Some RuntimeError).
Proof. intros H. unfold f_disaggregate, pre_checks. rewrite H. reflexivity. Qed.

(** A chunk without a reading. *)
Lemma no_reading {S} predict f ms b (m : mains S) kw st p good before gap after e name dt x : learnt f -> trained_on f ms -> mn_good m = Ok good ->
  asked_period (k_resample kw) (k_period kw) p -> mn_power m (sections_of kw good) p = (before ++ gap :: after, e) ->
  let targets := map (fun m => Some (number m)) ms in
  apart targets -> ready predict f b st name None dt targets before ->
  predict [] = Err x -> is_long gap = true -> present (ch_rows gap) = [] ->
  let long := filter is_long before in
  exists frames st', f_disaggregate predict f b m kw st = (st', Some x) /\ Forall2 (estimated predict f) long frames /\
    wrote b targets st long frames st' /\ st_root st' = st_root st /\ st_buildings st' = st_buildings st.
Proof.
  intros HL HT Hg Hp Hpw targets HA HR Hx Hlong Hno long. rewrite (disaggregate_eq predict f b m kw st p good (proj1 HL) Hg Hp). rewrite Hpw. cbn [fst snd].
  assert (HTg : Forall2 (fun w t => own_instance w = Ok t) (map fst (f_ind f)) targets) by (unfold trained_on in HT; rewrite HT; apply own_targets).
  destruct (steps_ok predict f own_instance None b name dt targets None HL HTg HA before (mk_lrun st [] None None false) HR) as (frs & s & E & EF & Fr & R & B & W & Z & N & _).
  fold long in EF, Fr, W, Z, N. cbv zeta. cbn [l_store l_frames] in *.
  assert (K : forall l s0 s1, f_steps predict f own_instance None b s0 l None = (s1, None) ->
    f_steps predict f own_instance None b s0 (l ++ gap :: after) e = f_steps predict f own_instance None b s1 (gap :: after) e).
  { clear. induction l as [|ch l IH]; intros s0 s1 H; cbn [f_steps List.app] in *; [injection H as ->; reflexivity|]. destruct (f_step _ _ _ _ _ s0 ch) as [s2 [x|]]; [discriminate|]. apply IH. exact H. }
  rewrite (K _ _ _ E). cbn [f_steps]. unfold f_step. unfold is_long in Hlong. apply Nat.leb_le in Hlong. replace (length (ch_rows gap) <? 100) with false by (symmetry; apply Nat.ltb_ge; exact Hlong).
  unfold f_chunk. change (dropna (ch_rows gap)) with (present (ch_rows gap)). rewrite Hno. cbn [map]. rewrite Hx. cbn [bind]. cbn [l_store].
  exists frs, (l_store s). split; [reflexivity|]. split; [exact EF|]. split; [exact W|]. split; [exact R|exact B].
Qed.

(** Trained across buildings: the columns are no meters. *)
Lemma types_steps predict f b e t r : learnt f -> map fst (f_ind f) = Typed t :: r -> forall chs s0,
  Forall (fun ch => is_long ch = true -> usable predict f ch) chs -> Exists (fun ch => is_long ch = true) chs ->
  exists s, f_steps predict f own_instance None b s0 chs e = (s, Some AttributeError) /\ l_store s = l_store s0.
Proof.
  intros HL HT. induction chs as [|ch chs IH]; intros s0 HU HX; [inversion HX|]. apply Forall_cons_iff in HU. destruct HU as [U1 U2]. cbn [f_steps]. unfold f_step.
  destruct (is_long ch) eqn:El.
  - unfold is_long in El. apply Nat.leb_le in El. replace (length (ch_rows ch) <? 100) with false by (symmetry; apply Nat.ltb_ge; exact El).
    destruct (U1 eq_refl) as (_ & states & HE). destruct (chunk_spec predict f ch states HL HE) as ((times & cols) & Ec & (_ & EC & _)). rewrite Ec. cbn [snd] in EC. rewrite HT in EC.
    destruct cols as [|[w col] cols]; [discriminate|]. cbn [map fst] in EC. injection EC as -> _. cbn [write_columns own_instance]. eexists. split; reflexivity.
  - assert (HX' : Exists (fun ch => is_long ch = true) chs) by (inversion HX; [congruence|assumption]). unfold is_long in El. apply Nat.leb_gt in El.
    replace (length (ch_rows ch) <? 100) with true by (symmetry; apply Nat.ltb_lt; exact El). exact (IH s0 U2 HX').
Qed.

Lemma types_spec {S} predict f b (m : mains S) kw st p good chs e t r : learnt f -> map fst (f_ind f) = Typed t :: r -> mn_good m = Ok good ->
  asked_period (k_resample kw) (k_period kw) p -> mn_power m (sections_of kw good) p = (chs, e) ->
  Forall (fun ch => is_long ch = true -> usable predict f ch) chs -> Exists (fun ch => is_long ch = true) chs ->
  f_disaggregate predict f b m kw st = (st, Some AttributeError).
Proof.
  intros HL HT Hg Hp Hpw HU HX. rewrite (disaggregate_eq predict f b m kw st p good (proj1 HL) Hg Hp). rewrite Hpw. cbn [fst snd]. cbv zeta.
  destruct (types_steps predict f b e t r HL HT chs (mk_lrun st [] None None false) HU HX) as (s & -> & ->). reflexivity.
Qed.
