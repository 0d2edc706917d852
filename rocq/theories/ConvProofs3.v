From Coq Require Import Ascii String.
From Verif Require Import Base TimeFrameModel TimeFrameSpec TimeFrameProofs StoreModel StoreSpec StoreProofs StoreProofs2
  KeyModel KeySpec KeyProofs ConvModel ConvSpec ConvProofs ConvProofs2.
Import List.
Open Scope list_scope.
Open Scope nat_scope.

Lemma load_one {A} (rows : list (sample A)) c g :
  hdf_load_section rows tf_cleared tf_cleared 0 c = g -> hdf_load rows tf_cleared (default_sections None) 0 c = g.
Proof. intros E. cbn [default_sections hdf_load]. rewrite E. unfold gen_app. destruct g as [l [e|]]; cbn; [reflexivity|rewrite app_nil_r; reflexivity]. Qed.

Lemma loads_loadable {A} c (rows : list (sample A)) : (1 <= c) -> loadable c rows ->
  exists x cs, hdf_load rows tf_cleared (default_sections None) 0 c = (x :: cs, None) /\
    (length rows <= 1 -> c_rows x = [] /\ cs = []) /\ (2 <= length rows -> delivers (x :: cs) rows c).
Proof.
  intros Hc (Inc & H). destruct (section_unbounded rows tf_cleared tf_cleared tf_cleared 0 c Inc Hc cleared_meet eq_refl eq_refl eq_refl) as (S1 & S2 & _).
  destruct (le_lt_dec (length rows) 1) as [L|L].
  - rewrite (load_one _ _ _ (S1 L)). exists (mkChunk [] None tf_cleared), []. repeat split; intros; cbn; lia || auto.
  - destruct S2 as (cs & E & D & _); [lia|lia|]. rewrite (load_one _ _ _ E). destruct cs as [|x cs].
    + destruct D as (U & _). cbn in U. subst rows. cbn in L. lia.
    + exists x, cs. split; [reflexivity|]. split; [lia|]. intros _. exact D.
Qed.

Lemma headers {A} (x : sample A) rows rest : csv_table (to_csv (x :: rows) ++ rest) = match rest with [] => Some (x :: rows) | _ => csv_table (to_csv (x :: rows) ++ rest) end.
Proof. destruct rest; [rewrite app_nil_r; apply table_to_csv; discriminate|reflexivity]. Qed.

Lemma data_header {A} (rows : list (sample A)) rest : data_lines (map Row rows ++ Header :: rest) = None.
Proof. induction rows as [|x r IH]; [reflexivity|]. cbn [map app data_lines]. rewrite IH. reflexivity. Qed.

Lemma two_headers {A} (a b : list (sample A)) rest : a <> [] -> b <> [] -> csv_table (to_csv a ++ to_csv b ++ rest) = None.
Proof. destruct a as [|x a]; [contradiction|]. destruct b as [|y b]; [contradiction|]. intros _ _. cbn [to_csv app csv_table]. apply data_header. Qed.

Section Meters.
Context {A : Type}.
Variable py_int : str -> option Z.
Hypothesis HP : reads_numerals py_int.

Lemma converted (c : nat) (root : node A) : (1 <= c) -> layout root ->
  (forall b u m rows, (1 <= b)%Z -> (1 <= m)%Z -> reading root b u m rows -> loadable c rows) ->
  exists st l dev, convert (hdf_source tf_cleared c root) (csv_sink py_int) new_csv = (st, None) /\ n_meta root = Some (Dict l) /\
    assoc (KStr (lit "meter_devices")) l = Some dev /\
    v_dataset st = Some (Dict (del_assoc (KStr (lit "meter_devices")) l)) /\ v_devices st = Some dev /\
    (forall b bn, (1 <= b)%Z -> In (building_name b, bn) (n_children root) -> assoc (KInt b) (v_buildings st) = n_meta bn) /\
    (forall p ls, get_file p st = Some ls <-> exists b u m rows, (1 <= b)%Z /\ component u /\ (1 <= m)%Z /\ reading root b u m rows /\ p = meter_file b u m /\ ls = written c rows).
Proof.
  intros Hc L R. destruct (convert_ok py_int HP c root L) as (st & l & dev & E & EM & ED & D1 & D2 & D3 & F).
  { intros b u m rows Hb Hm H. destruct (loads_loadable c rows Hc (R b u m rows Hb Hm H)) as (x & cs & K & _). exists x, cs. exact K. }
  exists st, l, dev. repeat (split; [assumption|]). intros p ls. rewrite (F p ls). split.
  - intros (rows & B & ->). apply below_reading in B; [|exact L]. destruct B as (b & u & m & Hb & Cu & Hm & Rd & ->). exists b, u, m, rows. auto 7.
  - intros (b & u & m & rows & Hb & Cu & Hm & Rd & -> & ->). exists rows. split; [|reflexivity]. apply below_reading; [exact L|]. exists b, u, m. auto 6.
Qed.

Lemma reading_component (root : node A) b u m rows : layout root -> reading root b u m rows -> component u.
Proof.
  intros (_ & _ & L) (n & F & _). cbn [find_node] in F. destruct (child (building_name b) (n_children root)) as [bn|] eqn:E1; [|discriminate].
  destruct (child u (n_children bn)) as [un|] eqn:E2; [|discriminate]. apply child_in in E1. apply child_in in E2.
  destruct (L _ _ E1) as (_ & _ & _ & LB). exact (proj1 (LB _ _ E2)).
Qed.

(** The file of each meter is readable exactly for tables of 2 to [c] rows. *)
Lemma written_readable c (rows : list (sample A)) : (1 <= c) -> loadable c rows ->
  (2 <= length rows <= c -> csv_table (written c rows) = Some rows) /\
  (length rows < 2 \/ c < length rows -> csv_table (written c rows) = None).
Proof.
  intros Hc Ld. destruct (loads_loadable c rows Hc Ld) as (x & cs & E & S1 & S2). unfold written. rewrite E. cbn [fst].
  split.
  - intros L. assert (F : fits c rows) by (split; [exact (proj1 Ld)|exact L]). destruct (load_single rows c F) as (t & E'). rewrite E' in E. injection E as <- <-.
    cbn [map concat c_rows]. rewrite app_nil_r. apply table_to_csv. intros ->. cbn in L. lia.
  - intros [L|L].
    + destruct (S1 ltac:(lia)) as (Ex & ->). cbn [map concat]. rewrite Ex. reflexivity.
    + destruct (S2 ltac:(lia)) as (U & Sh & Sz). destruct cs as [|y cs].
      * cbn [unshared map concat] in U. rewrite app_nil_r in U. (* one chunk of more than c rows: c + 1 rows, which does not load *)
        apply Forall_cons_iff in Sz. destruct Sz as [Sz _]. rewrite U in Sz. destruct (proj2 Ld) as [K|K]; [lia|].
        exfalso. apply K. replace (length rows - 1) with c by lia. apply Nat.mod_same. lia.
      * apply Forall_cons_iff in Sz. destruct Sz as [Sx Sz]. apply Forall_cons_iff in Sz. destruct Sz as [Sy _].
        cbn [map concat]. apply two_headers; intros K; rewrite K in *; cbn in *; lia.
Qed.

Lemma to_csv_meters (c : nat) (root : node A) : (1 <= c) -> layout root ->
  (forall b u m rows, (1 <= b)%Z -> (1 <= m)%Z -> reading root b u m rows -> loadable c rows) ->
  exists st, convert (hdf_source tf_cleared c root) (csv_sink py_int) new_csv = (st, None) /\
    forall b u m rows, (1 <= b)%Z -> (1 <= m)%Z -> reading root b u m rows ->
      exists p ls, key_to_path py_int (meter_key b u m) = Ok p /\ get_file p st = Some ls /\
        (2 <= length rows <= c -> csv_table ls = Some rows) /\
        (length rows < 2 \/ c < length rows -> csv_table ls = None).
Proof.
  intros Hc L R. destruct (converted c root Hc L R) as (st & l & dev & E & _ & _ & _ & _ & _ & F). exists st. split; [exact E|].
  intros b u m rows Hb Hm Rd. pose proof (reading_component root b u m rows L Rd) as Cu. exists (meter_file b u m), (written c rows).
  split; [apply path_meter; assumption|]. split; [|apply written_readable; [exact Hc|exact (R b u m rows Hb Hm Rd)]].
  apply F. exists b, u, m, rows. auto 8.
Qed.

Lemma fits_loadable c (rows : list (sample A)) : fits c rows -> loadable c rows.
Proof. intros (I & L1 & L2). split; [exact I|]. right. rewrite Nat.mod_small by lia. lia. Qed.

Lemma to_csv_exact (c : nat) (root : node A) : layout root ->
  (forall b u m rows, (1 <= b)%Z -> (1 <= m)%Z -> reading root b u m rows -> fits c rows) -> (1 <= c) ->
  exists st, convert (hdf_source tf_cleared c root) (csv_sink py_int) new_csv = (st, None) /\
    (forall b u m rows, (1 <= b)%Z -> (1 <= m)%Z -> reading root b u m rows -> forall garbled, exists cs,
       csv_load_key py_int garbled tf_cleared c st (meter_key b u m) = (cs, None) /\ concat (map c_rows cs) = rows) /\
    (forall p ls, get_file p st = Some ls -> exists b u m rows, (1 <= b)%Z /\ (1 <= m)%Z /\ reading root b u m rows /\
       key_to_path py_int (meter_key b u m) = Ok p /\ csv_table ls = Some rows).
Proof.
  intros L R Hc. destruct (converted c root Hc L) as (st & l & dev & E & _ & _ & _ & _ & _ & F).
  { intros. apply fits_loadable. eauto. }
  exists st. split; [exact E|]. split.
  - intros b u m rows Hb Hm Rd garbled. pose proof (reading_component root b u m rows L Rd) as Cu. pose proof (R b u m rows Hb Hm Rd) as Ft.
    unfold csv_load_key. rewrite path_meter by assumption. assert (G : get_file (meter_file b u m) st = Some (written c rows)) by (apply F; exists b, u, m, rows; auto 8).
    rewrite G. rewrite (proj1 (written_readable c rows Hc (fits_loadable c rows Ft)) (proj2 Ft)). apply csv_load_all_rows. exact Ft.
  - intros p ls G. apply F in G. destruct G as (b & u & m & rows & Hb & Cu & Hm & Rd & -> & ->). exists b, u, m, rows.
    split; [exact Hb|]. split; [exact Hm|]. split; [exact Rd|]. split; [apply path_meter; assumption|].
    pose proof (R b u m rows Hb Hm Rd) as Ft. exact (proj1 (written_readable c rows Hc (fits_loadable c rows Ft)) (proj2 Ft)).
Qed.

(** ** Metadata *)
Lemma set_locations b (meters : list (mkey * val)) : NoDup (map fst meters) ->
  (forall k v, In (k, v) meters -> exists i d, k = KInt i /\ v = Dict d /\
      assoc (KStr (lit "data_location")) d = Some (Atom (meter_key b (lit "elec") i))) ->
  forall ks, incl ks (map fst meters) -> foldM (set_location b) ks meters = Ok meters.
Proof.
  intros ND H. induction ks as [|k ks IH]; intros I; [reflexivity|]. cbn [foldM].
  assert (Hk : In k (map fst meters)) by (apply I; left; reflexivity). apply in_map_iff in Hk. destruct Hk as ((k' & v) & <- & Hk). cbn [fst].
  destruct (H k' v Hk) as (i & d & -> & -> & E). unfold set_location at 1. rewrite (in_assoc _ _ _ ND Hk). cbn [set_item bind].
  assert (EK : lit "/building" ++ decimal b ++ lit "/elec/meter" ++ decimal i = meter_key b (lit "elec") i).
  { unfold meter_key, building_name, meter_name, absolute. cbn [map concat]. rewrite app_nil_r. rewrite <- !app_comm_cons. rewrite <- !app_assoc. reflexivity. }
  rewrite EK. rewrite (set_same _ _ _ E). rewrite (set_same _ _ _ (in_assoc _ _ _ ND Hk)). cbn [bind]. apply IH. intros x Hx. apply I. right. exact Hx.
Qed.

Lemma to_csv_metadata (c : nat) (root : node A) : (1 <= c) -> layout root ->
  (forall b u m rows, (1 <= b)%Z -> (1 <= m)%Z -> reading root b u m rows -> loadable c rows) ->
  exists st, convert (hdf_source tf_cleared c root) (csv_sink py_int) new_csv = (st, None) /\
    (exists m m', hdf_load_metadata root [slash] = Ok m /\ csv_load_metadata py_int st [slash] = Ok m' /\ same_dict m m') /\
    (forall b m, (1 <= b)%Z -> hdf_load_metadata root (absolute [building_name b]) = Ok m -> canonical_locations b m ->
       csv_load_metadata py_int st (absolute [building_name b]) = Ok m).
Proof.
  intros Hc L R. destruct (converted c root Hc L R) as (st & l & dev & E & EM & ED & D1 & D2 & D3 & _). exists st. split; [exact E|]. split.
  - exists (Dict l). eexists. split; [unfold hdf_load_metadata; rewrite str_eqb_refl, EM; reflexivity|].
    unfold csv_load_metadata. rewrite str_eqb_refl, D1, D2. cbn [or_none set_item]. split; [reflexivity|].
    eexists. eexists. split; [reflexivity|]. split; [reflexivity|]. intros k. rewrite assoc_set. destruct (mkey_eqb k _) eqn:EK.
    + apply mkey_eqb_spec in EK. subst k. exact ED.
    + rewrite assoc_del_other; [reflexivity|]. intros ->. rewrite mkey_eqb_refl in EK. discriminate.
  - intros b m Hb EB (lm & meters & -> & ND & EL & ND2 & Loc).
    assert (NS : str_eqb (absolute [building_name b]) [slash] = false) by (apply str_eqb_neq; rewrite absolute_cons; discriminate).
    unfold hdf_load_metadata in EB. rewrite NS in EB. unfold get_node in EB.
    rewrite parts_absolute in EB by (discriminate || (constructor; [apply building_component|constructor])). cbn [find_node] in EB.
    destruct (child (building_name b) (n_children root)) as [bn|] eqn:EC; [|discriminate]. apply child_in in EC.
    unfold csv_load_metadata. rewrite NS, (parse_building py_int HP b Hb). cbn [bind k_meter k_building]. rewrite (D3 b bn Hb EC).
    destruct (n_meta bn) as [m|]; [|discriminate]. injection EB as ->. cbn [or_none item]. rewrite EL. cbn [bind].
    rewrite set_locations; [|exact ND2|exact Loc|apply incl_refl]. cbn [bind set_item]. rewrite (set_same _ _ _ EL). reflexivity.
Qed.
End Meters.

(** ** Into an HDF5 file *)
Lemma to_hdf_raises {A} window c (root : node A) : layout root -> n_children root <> [] ->
  convert (hdf_source window c root) hdf_sink new_hdf = (Node (n_meta root) None [], Some AttributeError).
Proof.
  intros ((l & dev & EM & _) & U & L) N. unfold convert. cbn [s_meta hdf_source]. unfold hdf_load_metadata. rewrite str_eqb_refl, EM. cbn [with_res]. unfold then_.
  cbn [k_save hdf_sink]. unfold hdf_save_metadata at 1. rewrite str_eqb_refl. cbn [s_below hdf_source]. unfold hdf_elements_below. rewrite str_eqb_refl. cbn [orb with_res].
  destruct (n_children root) as [|[s bn] r] eqn:EC; [contradiction|]. cbn [map fst each]. destruct (L s bn (or_introl eq_refl)) as ((b & Hb & ->) & NM & _).
  unfold convert_building at 1. assert (EA : slash :: building_name b = absolute [building_name b]) by (rewrite absolute_cons, app_nil_r; reflexivity). rewrite EA.
  cbn [s_meta hdf_source]. unfold hdf_load_metadata.
  replace (str_eqb (absolute [building_name b]) [slash]) with false by (symmetry; apply str_eqb_neq; rewrite absolute_cons; discriminate).
  assert (C1 : Forall component [building_name b]) by (constructor; [apply building_component|constructor]).
  unfold get_node. rewrite parts_absolute by (discriminate || exact C1). cbn [find_node]. rewrite EC. cbn [child]. rewrite str_eqb_refl.
  destruct (n_meta bn) as [m|]; [|contradiction]. cbn [with_res]. unfold then_. cbn [k_save hdf_sink]. unfold hdf_save_metadata.
  replace (str_eqb (absolute [building_name b]) [slash]) with false by (symmetry; apply str_eqb_neq; rewrite absolute_cons; discriminate).
  unfold get_node. rewrite parts_absolute by (discriminate || exact C1). reflexivity.
Qed.

(** ** From a CSV store *)
Lemma each_keep {S X} (Q : S -> Prop) (f : X -> S -> S * option exn) l : (forall x s, In x l -> Q s -> Q (fst (f x s))) -> forall s, Q s -> Q (fst (each f l s)).
Proof.
  induction l as [|x l IH]; intros H s Hs; [exact Hs|]. cbn [each]. pose proof (H x s (or_introl eq_refl) Hs) as K. destruct (f x s) as [s' [e|]]; [exact K|].
  apply IH; [intros y s1 Hy; apply H; right; exact Hy|exact K].
Qed.

Lemma startswith_cons a p b s : startswith (a :: p) (b :: s) = true -> a = b.
Proof. cbn [startswith]. destruct (Ascii.eqb a b) eqn:E; [|discriminate]. intros _. apply Ascii.eqb_eq. exact E. Qed.

Lemma in_paths {A} (st : csv A) p : In p (paths st) -> exists ls, In (KStr p, ls) (v_files st).
Proof.
  unfold paths. induction (v_files st) as [|[k ls] r IH]; [intros []|]. cbn [map some_list fst]. destruct k as [q|z]; cbn [some_list].
  - intros [->|H]; [exists ls; left; reflexivity|]. destruct (IH H) as [l' K]. exists l'. right. exact K.
  - intros H. destruct (IH H) as [l' K]. exists l'. right. exact K.
Qed.

Lemma csv_source_silent {A S} py_int listing garbled window c (st : csv A) (snk : sink A S) (Q : S -> Prop) :
  in_buildings st -> (forall l x, In x (listing l) -> In x l) ->
  (forall k m s, Q s -> Q (fst (k_save snk k m s))) -> forall s, Q s ->
  Q (fst (convert (csv_source py_int listing garbled window c st) snk s)).
Proof.
  intros IB HL HS s Hs. unfold convert. cbn [s_meta csv_source]. destruct (csv_load_metadata py_int st [slash]) as [m|e]; cbn [with_res]; [|exact Hs].
  unfold then_. pose proof (HS [slash] m s Hs) as K. destruct (k_save snk [slash] m s) as [s1 [e|]]; [exact K|]. cbn [fst] in K.
  cbn [s_below csv_source]. unfold csv_elements_below at 1. rewrite str_eqb_refl. cbn [with_res].
  apply each_keep; [|exact K]. intros x s2 Hx Hs2. apply filter_In in Hx. destruct Hx as [_ Hx].
  unfold convert_building. cbn [s_meta csv_source]. destruct (csv_load_metadata py_int st (slash :: x)) as [m'|e]; cbn [with_res]; [|exact Hs2].
  unfold then_. pose proof (HS (slash :: x) m' s2 Hs2) as K2. destruct (k_save snk (slash :: x) m' s2) as [s3 [e|]]; [exact K2|]. cbn [fst] in K2.
  cbn [s_below csv_source]. unfold csv_elements_below.
  destruct x as [|a x]; [discriminate|]. rewrite lit_building in Hx. pose proof (startswith_cons _ _ _ _ Hx) as <-.
  cbn [startswith] in Hx. rewrite Ascii.eqb_refl in Hx. cbn [andb] in Hx.
  replace (str_eqb ("b"%char :: x) [slash]) with false by (symmetry; apply str_eqb_neq; discriminate).
  destruct x as [|a x]; [discriminate|]. change (lit "uilding") with ("u"%char :: lit "ilding") in Hx. pose proof (startswith_cons _ _ _ _ Hx) as <-.
  assert (ND : is_dir st ("u"%char :: x) = false).
  { unfold is_dir. destruct (existsb _ _) eqn:E; [|reflexivity]. apply existsb_exists in E. destruct E as (p & Hp & Sp).
    apply in_paths in Hp. destruct Hp as [ls Hp]. destruct (IB _ _ Hp) as [rest Er]. injection Er as ->. apply startswith_cons in Sp. discriminate. }
  rewrite ND. cbn [with_res each fst]. exact K2.
Qed.

Lemma csv_to_csv_nothing {A} py_int listing garbled window c (st out : csv A) :
  in_buildings st -> (forall l x, In x (listing l) -> In x l) ->
  v_files (fst (convert (csv_source py_int listing garbled window c st) (csv_sink py_int) out)) = v_files out.
Proof.
  intros IB HL. apply (csv_source_silent py_int listing garbled window c st (csv_sink py_int) (fun s => v_files s = v_files out)); try assumption; [|reflexivity].
  intros k m s Hs. cbn [k_save csv_sink]. unfold csv_save_metadata. destruct (str_eqb k [slash]).
  - destruct m as [|l]; [exact Hs|]. destruct (assoc _ l); exact Hs.
  - destruct (key_of_string py_int k) as [ko|e]; [|exact Hs]. destruct (k_meter ko); exact Hs.
Qed.

(** ** Writing and reading back *)
Lemma csv_put_load {A} py_int garbled c k (rows : list (sample A)) st : fits c rows -> snd (csv_put py_int k rows st) = None ->
  exists cs, csv_load_key py_int garbled tf_cleared c (fst (csv_put py_int k rows st)) k = (cs, None) /\ concat (map c_rows cs) = rows.
Proof.
  intros F. unfold csv_put, csv_load_key. destruct (key_to_path py_int k) as [p|e]; [|discriminate]. intros _. cbn [fst].
  unfold get_file, put_file. cbn [v_files]. rewrite assoc_set, mkey_eqb_refl. rewrite table_to_csv by (intros ->; destruct F as (_ & L & _); cbn in L; lia).
  apply csv_load_all_rows. exact F.
Qed.

Lemma csv_append_new {A} py_int garbled c k (rows : list (sample A)) st p : fits c rows -> key_to_path py_int k = Ok p -> get_file p st = None ->
  exists cs, csv_load_key py_int garbled tf_cleared c (fst (csv_append py_int k rows st)) k = (cs, None) /\ concat (map c_rows cs) = rows.
Proof.
  intros F EP G. unfold csv_append, csv_load_key. rewrite EP, G. cbn [fst app].
  unfold get_file, put_file. cbn [v_files]. rewrite assoc_set, mkey_eqb_refl. rewrite table_to_csv by (intros ->; destruct F as (_ & L & _); cbn in L; lia).
  apply csv_load_all_rows. exact F.
Qed.

Lemma csv_append_garbles {A} py_int k p (old rows : list (sample A)) st : old <> [] -> rows <> [] ->
  key_to_path py_int k = Ok p -> get_file p st = Some (to_csv old) ->
  exists ls, get_file p (fst (csv_append py_int k rows st)) = Some ls /\ csv_table ls = None.
Proof.
  intros N1 N2 EP G. unfold csv_append. rewrite EP, G. cbn [fst]. unfold get_file, put_file. cbn [v_files]. rewrite assoc_set, mkey_eqb_refl.
  eexists. split; [reflexivity|]. rewrite <- (app_nil_r (to_csv rows)). apply two_headers; assumption.
Qed.

Lemma csv_other_files {A} py_int k k' p p' (rows : list (sample A)) st : key_to_path py_int k = Ok p -> key_to_path py_int k' = Ok p' -> p <> p' ->
  get_file p' (fst (csv_put py_int k rows st)) = get_file p' st /\ get_file p' (fst (csv_append py_int k rows st)) = get_file p' st.
Proof.
  intros E E' N. unfold csv_put, csv_append. rewrite E. cbn [fst]. unfold get_file, put_file. cbn [v_files]. rewrite !assoc_set.
  rewrite mkey_eqb_neq by congruence. auto.
Qed.

Lemma hdf_append_table {A} k (rows : list (sample A)) root : rows <> [] ->
  table_at (hdf_append k rows root) k = Some (match table_at root k with None => rows | Some old => old ++ rows end).
Proof.
  intros N. unfold table_at, hdf_append, get_node. destruct rows as [|x r]; [contradiction|]. rewrite update_at. cbn [n_table].
  destruct (find_node root (key_parts k)) as [n|]; reflexivity.
Qed.

Lemma hdf_append_load {A} c k (rows : list (sample A)) root : rows <> [] ->
  let all := match table_at root k with None => rows | Some old => old ++ rows end in
  fits c all -> exists t, hdf_load_key tf_cleared c (hdf_append k rows root) k = ([mkChunk all None t], None).
Proof.
  intros N all F. pose proof (hdf_append_table k rows root N) as E. unfold table_at in E at 1. unfold hdf_load_key.
  destruct (get_node (hdf_append k rows root) k) as [n|]; [|discriminate]. rewrite E. apply load_single. exact F.
Qed.

Lemma update_tables {A} f (root : node A) p q : (forall r, q <> p ++ r) ->
  match find_node (update_node f root p) q with None => None | Some n => n_table n end =
  match find_node root q with None => None | Some n => n_table n end.
Proof.
  intros H. destruct (update_elsewhere f p root q H) as [(n & E & n' & E' & T & _)|(E & [E'|(n' & E' & T & _)])]; rewrite E, E'; congruence.
Qed.

Lemma hdf_append_below {A} (root : node A) (rows : list (sample A)) p q : q <> p ->
  match find_node (update_node (fun n => Node (n_meta n) (Some (match n_table n with None => rows | Some old => old ++ rows end)) (n_children n)) root p) q with None => None | Some n => n_table n end =
  match find_node root q with None => None | Some n => n_table n end.
Proof.
  revert root q. induction p as [|s p IH]; intros root q N.
  - destruct q as [|t q]; [contradiction|]. reflexivity.
  - rewrite find_update. destruct q as [|t q]; [reflexivity|]. destruct (str_eqb t s) eqn:E; [|reflexivity]. apply str_eqb_spec in E. subst t.
    rewrite IH by (intros ->; apply N; reflexivity). cbn [find_node]. destruct (child s (n_children root)); [reflexivity|]. destruct q; reflexivity.
Qed.

Lemma hdf_append_other {A} k k' (rows : list (sample A)) root : key_parts k' <> key_parts k -> table_at (hdf_append k rows root) k' = table_at root k'.
Proof.
  intros N. unfold table_at, hdf_append, get_node. destruct rows as [|x r]; [reflexivity|]. apply hdf_append_below. exact N.
Qed.

Lemma hdf_put_load {A} c k (rows : list (sample A)) root : fits c rows ->
  exists t, hdf_load_key tf_cleared c (fst (hdf_put k rows root)) k = ([mkChunk rows None t], None).
Proof.
  intros F. unfold hdf_put. destruct rows as [|x r]; [destruct F as (_ & L & _); cbn in L; lia|]. cbn [fst]. unfold hdf_load_key, get_node. rewrite update_at. cbn [n_table].
  apply load_single. exact F.
Qed.

Lemma hdf_put_other {A} k k' (rows : list (sample A)) root : (forall r, key_parts k' <> key_parts k ++ r) ->
  table_at (fst (hdf_put k rows root)) k' = table_at root k'.
Proof.
  intros N. unfold table_at, hdf_put, get_node. destruct rows as [|x r]; [reflexivity|]. cbn [fst]. apply update_tables. exact N.
Qed.
