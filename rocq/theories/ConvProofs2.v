From Coq Require Import Ascii String.
From Verif Require Import Base TimeFrameModel TimeFrameSpec TimeFrameProofs StoreModel StoreSpec StoreProofs StoreProofs2
  KeyModel KeySpec KeyProofs ConvModel ConvSpec ConvProofs.
Import List.
Open Scope list_scope.
Open Scope nat_scope.

Section ToCsv.
Context {A : Type}.
Variable py_int : str -> option Z.
Hypothesis HP : reads_numerals py_int.
Variables (c : nat) (root : node A).

(** What conversion writes for a table. *)
Definition written (rows : list (sample A)) : list (line A) :=
  concat (map (fun ch => to_csv (c_rows ch)) (fst (hdf_load rows tf_cleared (default_sections None) 0 c))).
Definition loads (rows : list (sample A)) : Prop :=
  exists x cs, hdf_load rows tf_cleared (default_sections None) 0 c = (x :: cs, None).

Definition contents (p : str) (st : csv A) : list (line A) := match get_file p st with None => [] | Some l => l end.

Lemma append_chunks k p cs : key_to_path py_int k = Ok p -> forall x st,
  each (fun ch => csv_append py_int k (c_rows ch)) (x :: cs) st =
  (put_file p (contents p st ++ concat (map (fun ch => to_csv (c_rows ch)) (x :: cs))) st, None).
Proof.
  intros EP. induction cs as [|y cs IH]; intros x st.
  - cbn [each map concat]. unfold csv_append. rewrite EP, app_nil_r. reflexivity.
  - cbn [each]. unfold csv_append at 1. rewrite EP. cbn [each] in IH. rewrite (IH y). f_equal.
    unfold contents, get_file, put_file. cbn [v_dataset v_devices v_buildings v_files]. rewrite assoc_set, mkey_eqb_refl, set_set.
    f_equal. f_equal. cbn [map concat]. rewrite <- !app_assoc. reflexivity.
Qed.

(** Files present: [P p rows] says that file [p] was written for [rows]. *)
Definition files_are (P : str -> list (sample A) -> Prop) (st : csv A) : Prop :=
  forall p ls, get_file p st = Some ls <-> exists rows, P p rows /\ ls = written rows.

Lemma files_add P st p rows : files_are P st -> (forall r, ~ P p r) ->
  files_are (fun q r => P q r \/ (q = p /\ r = rows)) (put_file p (contents p st ++ written rows) st).
Proof.
  intros H N q ls. unfold get_file, put_file. cbn [v_files]. rewrite assoc_set.
  destruct (mkey_eqb (KStr q) (KStr p)) eqn:E.
  - apply mkey_eqb_spec in E. injection E as ->.
    assert (EC : contents p st = []).
    { unfold contents. destruct (get_file p st) as [l|] eqn:G; [|reflexivity]. apply H in G. destruct G as (r & K & _). destruct (N r K). }
    rewrite EC. cbn [app]. split.
    + intros [= <-]. exists rows. auto.
    + intros (r & [K|[_ ->]] & ->); [destruct (N r K)|reflexivity].
  - assert (Hq : q <> p) by (intros ->; rewrite mkey_eqb_refl in E; discriminate).
    change (assoc (KStr q) (v_files st)) with (get_file q st). rewrite (H q ls). split.
    + intros (r & K & E'). exists r. auto.
    + intros (r & [K|[K _]] & E'); [exists r; auto|contradiction].
Qed.

Lemma files_ext P Q st : (forall p r, P p r <-> Q p r) -> files_are P st -> files_are Q st.
Proof.
  intros E H p ls. rewrite (H p ls). split; intros (r & K & E'); exists r; split; try exact E'; apply E; exact K.
Qed.

(** The part of the state that conversion of meters leaves alone. *)
Definition same_metadata (st st' : csv A) : Prop :=
  v_dataset st' = v_dataset st /\ v_devices st' = v_devices st /\ v_buildings st' = v_buildings st.

(** Meters below a utility whose names are among [pre]. *)
Definition below_utility (b : Z) (u : str) (un : node A) (pre : list str) (p : str) (rows : list (sample A)) : Prop :=
  exists m n, (1 <= m)%Z /\ In (meter_name m) pre /\ In (meter_name m, n) (n_children un) /\ n_table n = Some rows /\ p = meter_file b u m.
Definition below_building (b : Z) (bn : node A) (pre : list str) (p : str) (rows : list (sample A)) : Prop :=
  exists u un, In u pre /\ In (u, un) (n_children bn) /\ below_utility b u un (map fst (n_children un)) p rows.
Definition below_root (pre : list str) (p : str) (rows : list (sample A)) : Prop :=
  exists b bn, (1 <= b)%Z /\ In (building_name b) pre /\ In (building_name b, bn) (n_children root) /\ below_building b bn (map fst (n_children bn)) p rows.

Definition src := hdf_source tf_cleared c root.
Definition snk := csv_sink (A := A) py_int.

Lemma in_split_notin {X} (l pre post : list X) x : NoDup l -> l = pre ++ x :: post -> ~ In x pre.
Proof. intros ND -> K. apply NoDup_remove_2 in ND. apply ND. apply in_or_app. left. exact K. Qed.

Lemma fst_in {X Y} (l : list (X * Y)) pre x post : map fst l = pre ++ x :: post -> exists y, In (x, y) l.
Proof.
  intros E. assert (H : In x (map fst l)) by (rewrite E; apply in_or_app; right; left; reflexivity).
  apply in_map_iff in H. destruct H as ((a & y) & <- & H). exists y. exact H.
Qed.

Lemma in_unique (l : list (str * node A)) s n n' : unique l -> In (s, n) l -> In (s, n') l -> n = n'.
Proof. intros U H H'. apply (in_child _ _ _ U) in H. apply (in_child _ _ _ U) in H'. congruence. Qed.

Hypothesis Layout : layout root.
Hypothesis Loads : forall b u m rows, (1 <= b)%Z -> (1 <= m)%Z -> reading root b u m rows -> loads rows.

Section Utility.
Variables (b : Z) (bn : node A) (u : str) (un : node A).
Hypothesis Hb : (1 <= b)%Z.
Hypothesis Hbn : In (building_name b, bn) (n_children root).
Hypothesis Hun : In (u, un) (n_children bn).

Lemma bl : building_layout (building_name b) bn.
Proof. destruct Layout as (_ & _ & L). exact (L _ _ Hbn). Qed.
Lemma ul : utility_layout u un.
Proof. destruct bl as (_ & _ & _ & L). exact (L _ _ Hun). Qed.

Lemma find_building : child (building_name b) (n_children root) = Some bn.
Proof. destruct Layout as (_ & U & _). apply in_child; assumption. Qed.
Lemma find_utility : child u (n_children bn) = Some un.
Proof. destruct bl as (_ & _ & U & _). apply in_child; assumption. Qed.

Lemma key_components m : Forall component [building_name b; u; meter_name m].
Proof.
  constructor; [apply building_component|]. constructor; [exact (proj1 ul)|]. constructor; [apply meter_component|constructor].
Qed.

Lemma key_text m : absolute [building_name b; u] ++ [slash] ++ meter_name m = meter_key b u m.
Proof.
  unfold meter_key. rewrite !absolute_cons. cbn [app]. rewrite <- !app_assoc. cbn [app]. rewrite !app_nil_r. rewrite <- ?app_assoc. reflexivity.
Qed.

Lemma meter_reading m n rows : In (meter_name m, n) (n_children un) -> n_table n = Some rows -> reading root b u m rows.
Proof.
  intros Hn T. exists n. split; [|exact T]. cbn [find_node]. rewrite find_building, find_utility.
  destruct ul as (_ & U & _). rewrite (in_child _ _ _ U Hn). reflexivity.
Qed.

Lemma load_meter m n rows : In (meter_name m, n) (n_children un) -> n_table n = Some rows ->
  s_load src (meter_key b u m) = hdf_load rows tf_cleared (default_sections None) 0 c.
Proof.
  intros Hn T. cbn [s_load src hdf_source]. unfold hdf_load_key, get_node. unfold meter_key.
  rewrite parts_absolute by (discriminate || apply key_components).
  destruct (meter_reading m n rows Hn T) as (n' & F & T'). rewrite F, T'. reflexivity.
Qed.

Lemma convert_utility_ok st P : files_are P st ->
  (forall p rows r, below_utility b u un (map fst (n_children un)) p rows -> ~ P p r) ->
  exists st', convert_utility src snk (absolute [building_name b]) u st = (st', None) /\ same_metadata st st' /\
    files_are (fun p r => P p r \/ below_utility b u un (map fst (n_children un)) p r) st'.
Proof.
  intros H0 Fresh. unfold convert_utility.
  assert (EK : absolute [building_name b] ++ [slash] ++ u = absolute [building_name b; u]).
  { rewrite !absolute_cons. cbn [app]. rewrite <- !app_assoc. cbn [app]. rewrite !app_nil_r. rewrite <- ?app_assoc. reflexivity. }
  rewrite EK. cbn [s_below src hdf_source]. unfold hdf_elements_below.
  replace (str_eqb (absolute [building_name b; u]) [slash]) with false by (symmetry; apply str_eqb_neq; rewrite absolute_cons; discriminate).
  replace (str_eqb (absolute [building_name b; u]) []) with false by (symmetry; apply str_eqb_neq; rewrite absolute_cons; discriminate).
  cbn [orb]. unfold get_node.
  assert (C2 : Forall component [building_name b; u]) by (constructor; [apply building_component|constructor; [exact (proj1 ul)|constructor]]).
  rewrite parts_absolute by (discriminate || exact C2). cbn [find_node]. rewrite find_building, find_utility. cbn [with_res].
  destruct ul as (Cu & U & L).
  set (I := (fun pre s => same_metadata st s /\ files_are (fun p r => P p r \/ below_utility b u un pre p r) s)).
  match goal with |- context [each ?f ?l ?s] => assert (G : exists st', each f l s = (st', None) /\ I l st'); [apply (each_inv f I); unfold I; clear I|unfold I in G; clear I] end.
  3:{ destruct G as (st' & E & M & F). exists st'. auto. }
  - intros pre x post s Epre (M & F). destruct (fst_in _ _ _ _ Epre) as [n Hn]. destruct (L x n Hn) as [->|(m & Hm & -> & T)].
    + exists s. unfold convert_meter. rewrite str_eqb_refl. split; [reflexivity|]. split; [exact M|].
      revert F. apply files_ext. intros p r. split; (intros [K|K]; [left; exact K|right]); destruct K as (m & n' & Hm & K & K'); exists m, n'; (split; [exact Hm|]); (split; [|exact K']).
      * apply in_or_app. left. exact K.
      * apply in_app_or in K. destruct K as [K|[K|[]]]; [exact K|discriminate].
    + destruct (n_table n) as [rows|] eqn:ET; [|contradiction]. unfold convert_meter. rewrite name_not_cache, key_text. rewrite (load_meter m n rows Hn ET).
      destruct (Loads b u m rows Hb Hm (meter_reading m n rows Hn ET)) as (y & cs & EL). rewrite EL. cbn [fst snd k_append snk csv_sink].
      rewrite (append_chunks (meter_key b u m) (meter_file b u m) cs) by (apply path_meter; assumption).
      eexists. split; [reflexivity|]. split; [exact M|].
      assert (EW : concat (map (fun ch => to_csv (c_rows ch)) (y :: cs)) = written rows) by (unfold written; rewrite EL; reflexivity).
      rewrite EW.
      assert (NI : ~ In (meter_name m) pre) by (eapply in_split_notin; [exact U|exact Epre]).
      assert (Fr : forall r, ~ (P (meter_file b u m) r \/ below_utility b u un pre (meter_file b u m) r)).
      { intros r [K|K].
        - apply (Fresh (meter_file b u m) rows r); [|exact K]. exists m, n. split; [exact Hm|]. split; [apply in_map_iff; exists (meter_name m, n); auto|]. auto.
        - destruct K as (m' & n' & Hm' & K & _ & _ & E). apply (meter_file_inj py_int HP) in E; try assumption. destruct E as (_ & _ & <-). contradiction. }
      pose proof (files_add _ s (meter_file b u m) rows F Fr) as F'. revert F'. apply files_ext. intros p r. split.
      * intros [[K|K]|[-> ->]]; [left; exact K|right|right].
        -- destruct K as (m' & n' & Hm' & K & K'). exists m', n'. split; [exact Hm'|]. split; [apply in_or_app; left; exact K|exact K'].
        -- exists m, n. split; [exact Hm|]. split; [apply in_or_app; right; left; reflexivity|]. auto.
      * intros [K|K]; [left; left; exact K|]. destruct K as (m' & n' & Hm' & K & K1 & K2 & K3). apply in_app_or in K. destruct K as [K|[K|[]]].
        -- left. right. exists m', n'. auto.
        -- right. assert (m' = m) by (apply app_inv_head in K; apply (decimal_inj py_int HP); congruence). subst m'.
           rewrite (in_unique _ _ _ _ U K1 Hn) in K2. split; [exact K3|congruence].
  - split; [repeat split|]. revert H0. apply files_ext. intros p r. split; [tauto|]. intros [K|K]; [exact K|]. destruct K as (m & n & _ & [] & _).
Qed.
End Utility.

Section Building.
Variables (b : Z) (bn : node A).
Hypothesis Hb : (1 <= b)%Z.
Hypothesis Hbn : In (building_name b, bn) (n_children root).

Lemma below_utility_key u un pre p rows : component u -> below_utility b u un pre p rows -> exists m, (1 <= m)%Z /\ p = meter_file b u m.
Proof. intros _ (m & n & Hm & _ & _ & _ & E). exists m. auto. Qed.

Lemma convert_building_ok st P m : files_are P st -> n_meta bn = Some m ->
  (forall p rows r, below_building b bn (map fst (n_children bn)) p rows -> ~ P p r) ->
  exists st', convert_building src snk (building_name b) st = (st', None) /\
    v_dataset st' = v_dataset st /\ v_devices st' = v_devices st /\ v_buildings st' = set_assoc (KInt b) m (v_buildings st) /\
    files_are (fun p r => P p r \/ below_building b bn (map fst (n_children bn)) p r) st'.
Proof.
  intros H0 EM Fresh. unfold convert_building.
  assert (EA : slash :: building_name b = absolute [building_name b]) by (rewrite absolute_cons, app_nil_r; reflexivity).
  rewrite EA. cbn [s_meta src hdf_source]. unfold hdf_load_metadata.
  replace (str_eqb (absolute [building_name b]) [slash]) with false by (symmetry; apply str_eqb_neq; rewrite absolute_cons; discriminate).
  assert (C1 : Forall component [building_name b]) by (constructor; [apply building_component|constructor]).
  unfold get_node. rewrite parts_absolute by (discriminate || exact C1). cbn [find_node]. rewrite (find_building b bn Hbn), EM. cbn [with_res]. unfold then_.
  cbn [k_save snk csv_sink]. unfold csv_save_metadata.
  replace (str_eqb (absolute [building_name b]) [slash]) with false by (symmetry; apply str_eqb_neq; rewrite absolute_cons; discriminate).
  rewrite (parse_building py_int HP b Hb). cbn [k_meter k_building].
  set (st1 := mkCsv (v_dataset st) (v_devices st) (set_assoc (KInt b) m (v_buildings st)) (v_files st)).
  cbn [s_below src hdf_source]. unfold hdf_elements_below.
  replace (str_eqb (building_name b) [slash]) with false by (symmetry; apply str_eqb_neq; discriminate).
  replace (str_eqb (building_name b) []) with false by (symmetry; apply str_eqb_neq; discriminate).
  cbn [orb]. unfold get_node. change (key_parts (building_name b)) with (key_parts (separated [building_name b])). rewrite parts_separated by (discriminate || exact C1).
  cbn [find_node]. rewrite (find_building b bn Hbn). cbn [with_res].
  assert (BL := bl b bn Hbn). destruct BL as (_ & _ & U & L).
  set (I := (fun pre s => same_metadata st1 s /\ files_are (fun p r => P p r \/ below_building b bn pre p r) s)).
  match goal with |- context [each ?f ?l ?s] => assert (G : exists st', each f l s = (st', None) /\ I l st'); [apply (each_inv f I); unfold I; clear I|unfold I in G; clear I] end.
  3:{ destruct G as (st' & E & (M1 & M2 & M3) & F). exists st'. split; [exact E|]. auto. }
  - intros pre x post s Epre (M & F). destruct (fst_in _ _ _ _ Epre) as [un Hun].
    assert (Cx : component x) by exact (proj1 (L x un Hun)).
    destruct (convert_utility_ok b bn x un Hb Hbn Hun s (fun p r => P p r \/ below_building b bn pre p r) F) as (s' & E & M' & F').
    { intros p rows r B [K|K].
      - apply (Fresh p rows r); [|exact K]. exists x, un. split; [apply in_map_iff; exists (x, un); auto|]. auto.
      - destruct K as (u' & un' & K & Hun' & B'). destruct (below_utility_key _ _ _ _ _ Cx B) as (m1 & Hm1 & E1).
        assert (Cu' : component u') by exact (proj1 (L u' un' Hun')).
        destruct (below_utility_key _ _ _ _ _ Cu' B') as (m2 & Hm2 & E2). rewrite E1 in E2. apply (meter_file_inj py_int HP) in E2; try assumption.
        destruct E2 as (_ & <- & _). apply (in_split_notin _ _ _ _ U Epre). exact K. }
    exists s'. split; [exact E|]. split; [destruct M as (A1 & A2 & A3), M' as (B1 & B2 & B3); repeat split; congruence|].
    revert F'. apply files_ext. intros p r. split.
    + intros [[K|K]|K]; [left; exact K|right|right].
      * destruct K as (u' & un' & K & K'). exists u', un'. split; [apply in_or_app; left; exact K|exact K'].
      * exists x, un. split; [apply in_or_app; right; left; reflexivity|]. auto.
    + intros [K|K]; [left; left; exact K|]. destruct K as (u' & un' & K & K1 & K2). apply in_app_or in K. destruct K as [K|[<-|[]]].
      * left. right. exists u', un'. auto.
      * right. rewrite (in_unique _ _ _ _ U Hun K1). exact K2.
  - split; [repeat split|]. assert (H1 : files_are P st1) by exact H0. revert H1. apply files_ext. intros p r. split; [tauto|]. intros [K|K]; [exact K|]. destruct K as (u & un & [] & _).
Qed.
End Building.

Lemma convert_ok : exists st l dev, convert src snk new_csv = (st, None) /\ n_meta root = Some (Dict l) /\
    assoc (KStr (lit "meter_devices")) l = Some dev /\
    v_dataset st = Some (Dict (del_assoc (KStr (lit "meter_devices")) l)) /\ v_devices st = Some dev /\
    (forall b bn, (1 <= b)%Z -> In (building_name b, bn) (n_children root) -> assoc (KInt b) (v_buildings st) = n_meta bn) /\
    files_are (below_root (map fst (n_children root))) st.
Proof.
  destruct Layout as ((l & dev & EM & ED) & U & L). unfold convert. cbn [s_meta src hdf_source]. unfold hdf_load_metadata. rewrite str_eqb_refl, EM. cbn [with_res]. unfold then_.
  cbn [k_save snk csv_sink]. unfold csv_save_metadata. rewrite str_eqb_refl, ED.
  cbn [s_below src hdf_source]. unfold hdf_elements_below. rewrite str_eqb_refl. cbn [orb with_res].
  set (st1 := mkCsv (Some (Dict (del_assoc (KStr (lit "meter_devices")) l))) (Some dev) (v_buildings new_csv) (v_files new_csv)).
  set (I := (fun pre s => v_dataset s = v_dataset st1 /\ v_devices s = v_devices st1 /\
    (forall b bn, (1 <= b)%Z -> In (building_name b) pre -> In (building_name b, bn) (n_children root) -> assoc (KInt b) (v_buildings s) = n_meta bn) /\
    files_are (below_root pre) s)).
  match goal with |- context [each ?f ?l ?s] => assert (G : exists st', each f l s = (st', None) /\ I l st'); [apply (each_inv f I); unfold I; clear I|unfold I in G; clear I] end.
  3:{ destruct G as (st & E & M1 & M2 & M3 & F). exists st, l, dev. split; [exact E|]. split; [reflexivity|]. split; [exact ED|]. split; [exact M1|]. split; [exact M2|]. split; [|exact F].
    intros b bn Hb H. apply M3; [exact Hb| |exact H]. apply in_map_iff. exists (building_name b, bn). auto. }
  - intros pre x post s Epre (M1 & M2 & M3 & F). destruct (fst_in _ _ _ _ Epre) as [bn Hbn].
    destruct (L x bn Hbn) as ((b & Hb & ->) & NM & UB & LB). destruct (n_meta bn) as [m|] eqn:EB; [|contradiction].
    destruct (convert_building_ok b bn Hb Hbn s (below_root pre) m F EB) as (s' & E & A1 & A2 & A3 & F').
    { intros p rows r (u & un & Hu & Hun & B) (b' & bn' & Hb' & K & Hbn' & (u' & un' & Hu' & Hun' & B')).
      destruct (below_utility_key b u un _ p rows (proj1 (LB u un Hun)) B) as (m1 & Hm1 & E1).
      assert (Cu' : component u') by (destruct (L _ _ Hbn') as (_ & _ & _ & LB'); exact (proj1 (LB' u' un' Hun'))).
      destruct (below_utility_key b' u' un' _ p r Cu' B') as (m2 & Hm2 & E2). rewrite E1 in E2. apply (meter_file_inj py_int HP) in E2; try assumption; [|exact (proj1 (LB u un Hun))].
      destruct E2 as (<- & _ & _). apply (in_split_notin _ _ _ _ U Epre). exact K. }
    exists s'. split; [exact E|]. split; [congruence|]. split; [congruence|]. split.
    + intros b' bn' Hb' K K'. rewrite A3, assoc_set. destruct (mkey_eqb (KInt b') (KInt b)) eqn:EK.
      * apply mkey_eqb_spec in EK. injection EK as ->. rewrite (in_unique _ _ _ _ U K' Hbn). congruence.
      * apply M3; [exact Hb'| |exact K']. apply in_app_or in K. destruct K as [K|[K|[]]]; [exact K|]. exfalso. apply app_inv_head in K.
        apply (decimal_inj py_int HP) in K; try assumption. subst b'. rewrite mkey_eqb_refl in EK. discriminate.
    + revert F'. apply files_ext. intros p r. split.
      * intros [K|K].
        -- destruct K as (b' & bn' & Hb' & K & K'). exists b', bn'. split; [exact Hb'|]. split; [apply in_or_app; left; exact K|exact K'].
        -- exists b, bn. split; [exact Hb|]. split; [apply in_or_app; right; left; reflexivity|]. auto.
      * intros (b' & bn' & Hb' & K & K1 & K2). apply in_app_or in K. destruct K as [K|[K|[]]].
        -- left. exists b', bn'. auto.
        -- right. assert (b' = b) by (apply app_inv_head in K; apply (decimal_inj py_int HP); congruence). subst b'.
           rewrite (in_unique _ _ _ _ U Hbn K1). exact K2.
  - split; [reflexivity|]. split; [reflexivity|]. split; [intros b bn _ []|]. intros p ls. split; [discriminate|]. intros (r & (b & bn & _ & [] & _) & _).
Qed.

(** In terms of [reading]. *)
Lemma below_reading p rows : below_root (map fst (n_children root)) p rows <->
  exists b u m, (1 <= b)%Z /\ component u /\ (1 <= m)%Z /\ reading root b u m rows /\ p = meter_file b u m.
Proof.
  destruct Layout as (_ & U & L). split.
  - intros (b & bn & Hb & _ & Hbn & u & un & _ & Hun & m & n & Hm & _ & Hn & T & ->). exists b, u, m.
    split; [exact Hb|]. split; [exact (proj1 (ul b bn u un Hbn Hun))|]. split; [exact Hm|]. split; [|reflexivity]. exact (meter_reading b bn u un Hbn Hun m n rows Hn T).
  - intros (b & u & m & Hb & Cu & Hm & (n & F & T) & ->). cbn [find_node] in F.
    destruct (child (building_name b) (n_children root)) as [bn|] eqn:E1; [|discriminate].
    destruct (child u (n_children bn)) as [un|] eqn:E2; [|discriminate].
    destruct (child (meter_name m) (n_children un)) as [n'|] eqn:E3; [|discriminate]. injection F as ->.
    apply child_in in E1. apply child_in in E2. apply child_in in E3.
    exists b, bn. split; [exact Hb|]. split; [apply in_map_iff; exists (building_name b, bn); auto|]. split; [exact E1|].
    exists u, un. split; [apply in_map_iff; exists (u, un); auto|]. split; [exact E2|].
    exists m, n. split; [exact Hm|]. split; [apply in_map_iff; exists (meter_name m, n); auto|]. auto.
Qed.

(** A meter that can be read has positive numbers. *)
Lemma decimal_small n : (n <= 0)%Z -> decimal n = lit "0".
Proof. intros H. unfold decimal. replace (Z.to_N n) with 0%N by lia. reflexivity. Qed.
End ToCsv.
