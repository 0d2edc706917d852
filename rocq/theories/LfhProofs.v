(** One chunk, and runs over the chunks of one mains. *)
From Coq Require Import String QArith Sorted.
From Verif Require Import Base TimeFrameModel TimeFrameSpec LcoModel LcoSpec LcoProofs LcoProofs2 LfhModel LfhSpec.
From Verif Require FhmmModel FhmmSpec FhmmProofs FhmmFitProofs FhmmSortProofs.
Import List.
Open Scope list_scope.
Open Scope nat_scope.

(** ** Estimates *)

Lemma picks_map {A B} (g : A -> B) ls js ys : FhmmSpec.picks (map (map g) ls) js ys -> exists xs, FhmmSpec.picks ls js xs /\ ys = map g xs.
Proof.
  revert js ys. induction ls as [|l ls IH]; cbn [map]; intros js ys H; inversion H as [|? j y ? js' ys' E K]; subst.
  - exists []. split; [constructor|reflexivity].
  - rewrite nth_error_map in E. destruct (nth_error l j) as [x|] eqn:Ex; [|discriminate]. injection E as <-. destruct (IH _ _ K) as (xs & X1 & ->).
    exists (x :: xs). split; [constructor; assumption|reflexivity].
Qed.

Lemma centroids_means f : learnt f -> centroids f = map (map FhmmModel.round_even) (map snd (f_ind f)).
Proof.
  intros [_ H]. unfold centroids. rewrite map_map. induction H as [|kv l [_ S1] H IH]; [reflexivity|]. cbn [map]. f_equal; [|exact IH].
  apply FhmmSortProofs.rounded_sorted. exact S1.
Qed.

Lemma lens_map (g : Q -> Z) ls : FhmmProofs.lens (map (map g) ls) = FhmmProofs.lens ls.
Proof. unfold FhmmProofs.lens. rewrite map_map. apply map_ext. intros l. apply map_length. Qed.

Lemma learnt_pos f : learnt f -> Forall (fun n => 0 < n) (FhmmProofs.lens (map snd (f_ind f))).
Proof.
  intros [_ H]. unfold FhmmProofs.lens. rewrite map_map. induction H as [|kv l [S1 _] H IH]; [constructor|]. cbn [map]. constructor; [|exact IH].
  destruct (snd kv); [contradiction|cbn; lia].
Qed.

Lemma choices_product l : choices l = FhmmModel.product l.
Proof. induction l as [|a l IH]; [reflexivity|]. cbn [choices FhmmModel.product]. rewrite IH. reflexivity. Qed.

Lemma decode_states f states : learnt f -> Forall (fun s => s < length (choices (map snd (f_ind f)))) states ->
  exists decoded picks, FhmmModel.decode_hmm (centroids f) states = Ok decoded /\ length decoded = length states /\
    Forall2 (fun s ms => nth_error (choices (map snd (f_ind f))) s = Some ms) states picks /\
    Forall2 (fun d ms => map snd d = map FhmmModel.round_even ms /\ length ms = length (f_ind f)) decoded picks.
Proof.
  intros HL HS. rewrite (centroids_means f HL). pose proof (learnt_pos f HL) as HP. set (ls := map snd (f_ind f)) in *.
  assert (Hls : length ls = length (f_ind f)) by apply map_length. clearbody ls. unfold FhmmModel.decode_hmm.
  induction HS as [|s states Hs HS IH]; [exists [], []; repeat split; constructor|].
  destruct IH as (dec & pk & E & L & F1 & F2). rewrite choices_product, FhmmProofs.product_len in Hs.
  destruct (FhmmProofs.decode_thm (map (map FhmmModel.round_even) ls) s) as (ps & D1 & D2); [rewrite lens_map; exact HP|]. rewrite lens_map in D1, D2.
  destruct (picks_map _ _ _ _ D2) as (ms & M1 & ->). pose proof (FhmmProofs.product_nth ls HP s ms Hs M1) as M2. rewrite <- choices_product in M2. pose proof (FhmmProofs.picks_length _ _ _ M1) as [L1 L2].
  exists (combine (FhmmProofs.dig (FhmmProofs.lens ls) s) (map FhmmModel.round_even ms) :: dec), (ms :: pk). cbn [mapM]. rewrite D1. cbn [bind]. rewrite E. cbn [bind].
  split; [reflexivity|]. split; [cbn; congruence|]. split; constructor; try assumption. split; [|lia]. apply FhmmProofs.combine_snd'. rewrite map_length. exact L1.
Qed.

Lemma column_ok i n decoded (picks : list (list Q)) : i < n ->
  Forall2 (fun d ms => map snd d = map FhmmModel.round_even ms /\ length ms = n) decoded picks ->
  exists col, mapM (fun row : list (nat * Z) => do x <- FhmmModel.item row i; Ok (snd x)) decoded = Ok col /\
    Forall2 (fun ms z => exists m, nth_error ms i = Some m /\ FhmmSpec.rounded m z) picks col.
Proof.
  intros Hi F. induction F as [|d ms decoded picks [E1 E2] F IH]; [exists []; split; [reflexivity|constructor]|]. destruct IH as (col & E & C).
  destruct (nth_error ms i) as [m|] eqn:Em; [|apply nth_error_None in Em; lia]. assert (K := f_equal (fun l => nth_error l i) E1). cbv beta in K.
  rewrite !nth_error_map, Em in K. destruct (nth_error d i) as [[j v]|] eqn:Ed; [|discriminate]. cbn in K. injection K as ->.
  exists (FhmmModel.round_even m :: col). cbn [mapM]. unfold FhmmModel.item at 1. rewrite Ed. cbn [bind snd]. rewrite E. cbn [bind]. split; [reflexivity|].
  constructor; [|exact C]. exists m. split; [exact Em|apply FhmmFitProofs.round_even_ok].
Qed.

Lemma columns_ok n decoded (picks : list (list Q)) : Forall2 (fun d ms => map snd d = map FhmmModel.round_even ms /\ length ms = n) decoded picks ->
  forall k i, i + k <= n ->
  exists cols, mapM (fun i => mapM (fun row : list (nat * Z) => do x <- FhmmModel.item row i; Ok (snd x)) decoded) (seq i k) = Ok cols /\ length cols = k /\
    forall j col, nth_error cols j = Some col -> Forall2 (fun ms z => exists m, nth_error ms (i + j) = Some m /\ FhmmSpec.rounded m z) picks col.
Proof.
  intros F. induction k as [|k IH]; intros i Hi; cbn [seq mapM]; [exists []; split; [reflexivity|]; split; [reflexivity|]; intros [|j] col H; discriminate|].
  destruct (column_ok i n decoded picks) as (col & E & C); [lia|exact F|]. rewrite E. cbn [bind]. destruct (IH (S i)) as (cols & E' & L & C'); [lia|]. rewrite E'. cbn [bind].
  exists (col :: cols). split; [reflexivity|]. split; [cbn; congruence|]. intros [|j] c H; cbn [nth_error] in H.
  - injection H as <-. rewrite Nat.add_0_r. exact C.
  - replace (i + S j) with (S i + j) by lia. exact (C' j c H).
Qed.

Lemma nth_combine {A B} (a : list A) (b : list B) : forall i x, nth_error (combine a b) i = Some x -> nth_error a i = Some (fst x) /\ nth_error b i = Some (snd x).
Proof. revert b. induction a as [|u a IH]; intros [|v b] [|i] x H; cbn in *; try discriminate; [injection H as <-; auto|]. exact (IH b i x H). Qed.

Lemma chunk_spec predict f ch states : learnt f -> explains predict f ch states ->
  exists frame, f_chunk predict f (ch_rows ch) = Ok frame /\ estimated predict f ch frame.
Proof.
  intros HL HE. pose proof HE as HE0. destruct HE as (P & L & HS). destruct (decode_states f states HL HS) as (dec & pk & E & LD & F1 & F2).
  destruct (columns_ok _ dec pk F2 (length (f_ind f)) 0) as (cols & EC & LC & C); [lia|].
  unfold f_chunk. change (dropna (ch_rows ch)) with (present (ch_rows ch)). rewrite P. cbn [bind]. rewrite E. cbn [bind].
  replace (length dec =? length (present (ch_rows ch))) with true by (symmetry; apply Nat.eqb_eq; lia). rewrite EC. cbn [bind].
  eexists. split; [reflexivity|]. split; [reflexivity|]. cbn [fst snd]. split; [apply FhmmProofs.combine_fst'; rewrite map_length; lia|].
  exists states, pk. split; [exact HE0|]. split; [exact F1|]. intros i w col H. apply nth_combine in H. exact (C i col (proj2 H)).
Qed.

(** ** The columns of a chunk *)

Lemma write_columns_spec inst_of b ch times : times <> [] -> forall cols targets s, Forall2 (fun c t => inst_of (fst c) = Ok t) cols targets ->
  (forall i j z, nth_error targets i = Some (Some z) -> nth_error targets j = Some (Some z) -> i = j) ->
  (forall z, In (Some z) targets -> accepts (l_store s) (b, z) (ch_name ch, float64)) ->
  exists s', write_columns inst_of b ch times cols s = (s', None) /\ l_frames s' = l_frames s /\ l_measure s' = l_measure s /\
    (forall z, In (Some z) targets -> l_cols s' = Some (ch_name ch) /\ l_avail s' = true) /\
    st_root (l_store s') = st_root (l_store s) /\ st_buildings (l_store s') = st_buildings (l_store s) /\
    (forall i z, nth_error targets i = Some (Some z) ->
       lookup (b, z) (st_tables (l_store s')) = Some ((ch_name ch, float64), rows_at (b, z) (l_store s) ++ column_of i (times, cols))) /\
    (forall k, (forall z, In (Some z) targets -> k <> (b, z)) -> lookup k (st_tables (l_store s')) = lookup k (st_tables (l_store s))) /\
    (l_cols s = Some (ch_name ch) -> l_avail s = true -> l_cols s' = Some (ch_name ch) /\ l_avail s' = true).
Proof.
  intros HT. assert (HT' : (length times =? 0) = false) by (destruct times; [contradiction|reflexivity]).
  induction cols as [|[w col] cols IH]; intros targets s F HD HA; inversion F as [|? t ? targets' Hw F']; subst; clear F.
  { exists s. cbn. repeat (split; [reflexivity|]). split; [intros z []|]. repeat (split; [reflexivity|]). split; [intros [|i] z H; discriminate|]. split; [reflexivity|auto]. }
  cbn [fst] in Hw. cbn [write_columns]. rewrite Hw.
  assert (HD' : forall i j z, nth_error targets' i = Some (Some z) -> nth_error targets' j = Some (Some z) -> i = j).
  { intros i j z H1 H2. assert (S i = S j) by (apply (HD (S i) (S j) z); assumption). lia. }
  destruct t as [z0|].
  - rewrite HT'. cbn [l_store l_frames l_measure l_cols].
    destruct (append_spec (l_store s) (b, z0) (ch_name ch, float64) (combine times (map Some col)) (HA z0 (or_introl eq_refl))) as (st1 & E1 & R1 & B1 & L1 & O1).
    rewrite E1.
    assert (Hz : forall z, In (Some z) targets' -> (b, z) <> (b, z0)).
    { intros z Hin Eq. injection Eq as ->. apply In_nth_error in Hin. destruct Hin as [j Hj]. specialize (HD 0 (S j) z0 eq_refl Hj). discriminate. }
    destruct (IH targets' (set_store (mk_lrun (l_store s) (l_frames s) (l_measure s) (Some (ch_name ch)) true) st1) F' HD') as (s' & E & Fr & Me & Av & R & B & W & O & K).
    { intros z Hin. cbn [set_store l_store]. eapply accepts_other; [apply O1, Hz, Hin|]. apply HA. right. exact Hin. }
    cbn [set_store l_store l_frames l_measure l_cols l_avail] in *. exists s'. split; [exact E|]. split; [exact Fr|]. split; [exact Me|].
    destruct (K eq_refl eq_refl) as [K1 K2]. split; [auto|]. split; [congruence|]. split; [congruence|]. split; [|split; [|auto]].
    + intros [|i] z Hi; cbn [nth_error] in Hi.
      * injection Hi as <-. rewrite O, L1; [reflexivity|]. intros z Hin Eq. exact (Hz z Hin (eq_sym Eq)).
      * rewrite (W i z Hi). rewrite (rows_at_other _ _ _ (O1 _ (Hz z (nth_error_In _ _ Hi)))). reflexivity.
    + intros k Hk. rewrite O by (intros z Hin; apply Hk; right; exact Hin). apply O1. apply Hk. left. reflexivity.
  - destruct (IH targets' s F' HD') as (s' & E & Fr & Me & Av & R & B & W & O & K).
    { intros z Hin. apply HA. right. exact Hin. }
    exists s'. split; [exact E|]. split; [exact Fr|]. split; [exact Me|]. split; [|split; [exact R|]; split; [exact B|]; split; [|split; [|exact K]]].
    + intros z [H|H]; [discriminate|]. exact (Av z H).
    + intros [|i] z Hi; cbn [nth_error] in Hi; [discriminate|]. exact (W i z Hi).
    + intros k Hk. apply O. intros z Hin. apply Hk. right. exact Hin.
Qed.

Lemma column_eqb_refl c : column_eqb c c = true.
Proof. destruct c as [a b]. unfold column_eqb. cbn. rewrite !String.eqb_refl. reflexivity. Qed.

(** ** One chunk *)

Lemma targets_cols (inst_of : who -> res (option Z)) (cols : list (who * list Z)) inds targets : Forall2 (fun w t => inst_of w = Ok t) inds targets -> map fst cols = inds ->
  Forall2 (fun c t => inst_of (fst c) = Ok t) cols targets.
Proof.
  intros F E. revert cols E. induction F as [|w t inds targets H F IH]; intros [|c cols] E; try discriminate; constructor; injection E as E1 E2; [congruence|auto].
Qed.

Lemma step_spec predict f inst_of force b s ch name dt targets : learnt f ->
  Forall2 (fun w t => inst_of w = Ok t) (map fst (f_ind f)) targets -> apart targets -> is_long ch = true ->
  ready predict f b (l_store s) name force dt targets [ch] ->
  exists frame s', f_step predict f inst_of force b s ch = (s', None) /\ estimated predict f ch frame /\
    l_frames s' = l_frames s ++ [ch_frame ch] /\ l_measure s' = Some name /\ l_avail s' = true /\ l_cols s' = Some name /\
    st_root (l_store s') = st_root (l_store s) /\ st_buildings (l_store s') = st_buildings (l_store s) /\
    wrote b targets (l_store s) [ch] [frame] (l_store s') /\ ready predict f b (l_store s') name force dt targets [].
Proof.
  intros HL HT (HD & H1 & (z0 & Hz0)) Hlong (HC & HA & HM). apply Forall_cons_iff in HC. destruct HC as [HC _]. destruct (HC Hlong) as ((HP & states & HE) & Hn & Hdt).
  unfold is_long in Hlong. apply Nat.leb_le in Hlong. unfold f_step. replace (length (ch_rows ch) <? 100) with false by (symmetry; apply Nat.ltb_ge; exact Hlong).
  destruct (chunk_spec predict f ch states HL HE) as ((times & cols) & Ec & EE). rewrite Ec. pose proof EE as EE0. destruct EE as (ET & EC & _). cbn [fst snd] in ET, EC.
  set (s1 := mk_lrun (l_store s) (l_frames s ++ [ch_frame ch]) (Some (ch_name ch)) (l_cols s) (l_avail s)).
  destruct (write_columns_spec inst_of b ch times) with (cols := cols) (targets := targets) (s := s1) as (s2 & E2 & Fr & Me & Av & R & B & W & O & _).
  { rewrite ET. destruct (present (ch_rows ch)); [contradiction|discriminate]. }
  { exact (targets_cols inst_of cols _ targets HT EC). }
  { exact HD. }
  { intros z Hin. rewrite Hn. exact (HA z Hin). }
  rewrite E2. destruct (Av z0 Hz0) as [Co Ava]. unfold write_mains. rewrite Co, column_eqb_refl.
  assert (Hm1 : forall z, In (Some z) targets -> (b, 1%Z) <> (b, z)) by (intros z Hin Eq; injection Eq as <-; contradiction).
  assert (Ed : match force with Some d => d | None => ch_dtype ch end = dt) by (destruct force; congruence). rewrite Ed.
  destruct (append_spec (l_store s2) (b, 1%Z) (ch_name ch, dt) (ch_rows ch)) as (st3 & E3 & R3 & B3 & L3 & O3).
  { eapply accepts_other; [apply O; exact Hm1|]. cbn [s1 l_store]. rewrite Hn. exact HM. }
  rewrite E3. exists (times, cols), (set_store s2 st3). cbn [set_store l_store l_frames l_measure l_avail l_cols]. split; [reflexivity|]. split; [exact EE0|].
  split; [exact Fr|]. split; [rewrite Me; cbn; congruence|]. split; [exact Ava|]. split; [congruence|]. split; [rewrite R3, R; reflexivity|]. split; [rewrite B3, B; reflexivity|].
  split; [split; [|split]|split; [constructor|split]].
  - intros i z Hi. assert (Hin := nth_error_In _ _ Hi). unfold rows_at at 1. rewrite O3 by (intros Eq; exact (Hm1 z Hin (eq_sym Eq))). rewrite (W i z Hi). cbn [snd flat_map s1 l_store]. rewrite app_nil_r. reflexivity.
  - unfold rows_at at 1. rewrite L3. cbn [snd flat_map]. rewrite app_nil_r. f_equal. apply rows_at_other. rewrite (O _ Hm1). reflexivity.
  - intros k Hk Hk2. rewrite O3 by exact Hk. rewrite O by exact Hk2. reflexivity.
  - intros z Hin t Ht. rewrite O3 in Ht by (intros Eq; exact (Hm1 z Hin (eq_sym Eq))). pose proof Hin as Hin0. apply In_nth_error in Hin. destruct Hin as [i Hi]. rewrite (W i z Hi) in Ht. injection Ht as <-. cbn. congruence.
  - intros t Ht. rewrite L3 in Ht. injection Ht as <-. cbn. congruence.
Qed.

Lemma ready_cons predict f b st name force dt targets ch chs : ready predict f b st name force dt targets (ch :: chs) <->
  ready predict f b st name force dt targets [ch] /\ ready predict f b st name force dt targets chs.
Proof. unfold ready. rewrite !Forall_cons_iff. split; [intros ((H1 & H2) & H3 & H4)|intros (((H1 & _) & H3 & H4) & (H2 & _))]; [split; (split; [|split; [exact H3|exact H4]]); [split; [exact H1|constructor]|exact H2]|split; [split; [exact H1|exact H2]|split; [exact H3|exact H4]]]. Qed.

Lemma ready_swap predict f b st st' name force dt targets chs : ready predict f b st name force dt targets chs -> ready predict f b st' name force dt targets [] ->
  ready predict f b st' name force dt targets chs.
Proof. intros (H1 & _) (_ & H2). split; assumption. Qed.

Lemma wrote_nil b targets st : wrote b targets st [] [] st.
Proof. split; [|split]; intros; cbn; rewrite ?app_nil_r; reflexivity. Qed.

Lemma wrote_trans b targets st l1 f1 st1 l2 f2 st2 : wrote b targets st l1 f1 st1 -> wrote b targets st1 l2 f2 st2 -> wrote b targets st (l1 ++ l2) (f1 ++ f2) st2.
Proof.
  intros (A1 & A2 & A3) (B1 & B2 & B3). split; [|split].
  - intros i z Hi. rewrite (B1 i z Hi), (A1 i z Hi), flat_map_app, <- app_assoc. reflexivity.
  - rewrite B2, A2, flat_map_app, <- app_assoc. reflexivity.
  - intros k H1 H2. rewrite B3, A3 by assumption. reflexivity.
Qed.

Lemma steps_ok predict f inst_of force b name dt targets e : learnt f ->
  Forall2 (fun w t => inst_of w = Ok t) (map fst (f_ind f)) targets -> apart targets ->
  forall chs s, ready predict f b (l_store s) name force dt targets chs ->
  let long := filter is_long chs in
  exists frames s', f_steps predict f inst_of force b s chs e = (s', e) /\ Forall2 (estimated predict f) long frames /\
    l_frames s' = l_frames s ++ map ch_frame long /\ st_root (l_store s') = st_root (l_store s) /\ st_buildings (l_store s') = st_buildings (l_store s) /\
    wrote b targets (l_store s) long frames (l_store s') /\ (long = [] -> s' = s) /\
    (long <> [] -> l_measure s' = Some name /\ l_avail s' = true /\ l_cols s' = Some name) /\ ready predict f b (l_store s') name force dt targets [].
Proof.
  intros HL HT HA. induction chs as [|ch chs IH]; intros s HR; cbn [filter f_steps].
  { exists [], s. cbn. rewrite app_nil_r. split; [reflexivity|]. split; [constructor|]. split; [reflexivity|]. split; [reflexivity|]. split; [reflexivity|]. split; [apply wrote_nil|]. split; [reflexivity|]. split; [contradiction|exact HR]. }
  apply ready_cons in HR. destruct HR as [HR1 HR2]. destruct (is_long ch) eqn:El; cbv zeta.
  - destruct (step_spec predict f inst_of force b s ch name dt targets HL HT HA El HR1) as (fr & s1 & E1 & EE & Fr & Me & Av & Co & R & B & W & HR).
    rewrite E1. destruct (IH s1 (ready_swap _ _ _ _ _ _ _ _ _ _ HR2 HR)) as (frs & s2 & E2 & EF & Fr2 & R2 & B2 & W2 & Z2 & N2 & HR3). exists (fr :: frs), s2.
    split; [exact E2|]. split; [constructor; assumption|]. split; [rewrite Fr2, Fr, <- app_assoc; reflexivity|]. split; [congruence|]. split; [congruence|].
    split; [exact (wrote_trans _ _ _ [ch] [fr] _ _ _ _ W W2)|]. split; [discriminate|]. split; [|exact HR3]. intros _.
    destruct (filter is_long chs) as [|c l] eqn:EL; [rewrite (Z2 eq_refl); auto|apply N2; discriminate].
  - unfold f_step. unfold is_long in El. apply Nat.leb_gt in El. replace (length (ch_rows ch) <? 100) with true by (symmetry; apply Nat.ltb_lt; exact El). exact (IH s HR2).
Qed.
