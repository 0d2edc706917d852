(** Proofs about removing keys and histories of a CSV store. *)
From Coq Require Import Ascii String.
From Verif Require Import Base TimeFrameModel StoreModel StoreSpec KeyModel KeySpec KeyProofs ConvModel ConvSpec ConvProofs ConvProofs2 ConvProofs3 RemoveModel RemoveSpec RemoveProofs.
Import List.
Open Scope list_scope.
Open Scope nat_scope.

Section Proofs.
Context {A : Type}.
Implicit Types (st : csv A) (e : event A) (h : list (event A)).

Lemma assoc_filter {V} (g : mkey -> bool) k (l : list (mkey * V)) : assoc k (filter (fun f => g (fst f)) l) = if g k then assoc k l else None.
Proof.
  induction l as [|[a x] l IH]; cbn [filter fst assoc]; [destruct (g k); reflexivity|].
  destruct (g a) eqn:G; cbn [assoc]; rewrite IH.
  - destruct (mkey_eqb k a) eqn:E; [|reflexivity]. apply mkey_eqb_spec in E. subst a. rewrite G. reflexivity.
  - destruct (mkey_eqb k a) eqn:E; [|reflexivity]. apply mkey_eqb_spec in E. subst a. rewrite G. reflexivity.
Qed.

Lemma startswith_spec p : forall s, startswith p s = true <-> exists r, s = p ++ r.
Proof.
  induction p as [|a p IH]; intros s; cbn [startswith List.app].
  - split; [intros _; exists s|]; reflexivity.
  - destruct s as [|b s]; [split; [discriminate|intros [r K]; discriminate]|]. rewrite Bool.andb_true_iff, IH, Ascii.eqb_eq. split.
    + intros [-> [r ->]]. exists r. reflexivity.
    + intros [r [= -> ->]]. split; [reflexivity|exists r; reflexivity].
Qed.

Lemma rev_repeat_slash i : rev (repeat slash i) = repeat slash i.
Proof.
  induction i as [|i IH]; [reflexivity|]. cbn [repeat rev]. rewrite IH. clear. induction i as [|i IH]; [reflexivity|]. cbn [repeat List.app]. rewrite IH. reflexivity.
Qed.

Definition base (d : str) : str := rev (lstrip (rev d)).
Lemma base_split d : exists i, d = base d ++ repeat slash i.
Proof.
  destruct (lstrip_split (rev d)) as [i E]. exists i. unfold base. rewrite <- (rev_involutive d), E at 1. rewrite rev_app_distr, rev_repeat_slash. reflexivity.
Qed.

Lemma inside_spec d p : startswith (dir_prefix d) p = true <-> below (base d) p.
Proof.
  unfold dir_prefix. change (rev (lstrip (rev d))) with (base d). rewrite startswith_spec. unfold below. split; intros [r ->]; exists r; [rewrite <- app_assoc|rewrite <- app_assoc]; reflexivity.
Qed.

(** A path below a directory, however many slashes end the directory's path. *)
Lemma base_below d d' i p : d = d' ++ repeat slash i -> below d' p -> startswith (dir_prefix d) p = true.
Proof.
  intros E [r B]. apply inside_spec.
  assert (R : exists k, d' = base d ++ repeat slash k).
  { assert (X : base d = base d').
    { unfold base. rewrite E, rev_app_distr, rev_repeat_slash, lstrip_repeat. reflexivity. }
    rewrite X. apply base_split. }
  destruct R as [k ->]. rewrite <- app_assoc in B. destruct k as [|k]; cbn [repeat List.app] in B.
  - exists r. exact B.
  - exists (repeat slash k ++ "/"%char :: r). exact B.
Qed.

Lemma get_removed st p d : get_file p (mkCsv (v_dataset st) (v_devices st) (v_buildings st) (filter (fun f => negb (mkey_eqb (fst f) (KStr d))) (v_files st))) =
  if str_eqb p d then None else get_file p st.
Proof.
  unfold get_file. cbn [v_files]. rewrite (assoc_filter (fun a => negb (mkey_eqb a (KStr d)))). cbn [mkey_eqb]. destruct (str_eqb p d); reflexivity.
Qed.

Lemma get_rmtree st p d : get_file p (mkCsv (v_dataset st) (v_devices st) (v_buildings st)
    (filter (fun f => negb (match fst f with KStr q => startswith (dir_prefix d) q | KInt _ => false end)) (v_files st))) =
  if startswith (dir_prefix d) p then None else get_file p st.
Proof.
  unfold get_file. cbn [v_files]. rewrite (assoc_filter (fun a => negb (match a with KStr q => startswith (dir_prefix d) q | KInt _ => false end))).
  destruct (startswith (dir_prefix d) p); reflexivity.
Qed.

Variable py_int : str -> option Z.
Variable empty_dir : csv A -> str -> bool.
Notation step := (csv_step py_int empty_dir).
Notation run := (csv_run py_int empty_dir).

Lemma save_files k m st : v_files (fst (csv_save_metadata py_int k m st)) = v_files st.
Proof.
  unfold csv_save_metadata. destruct (str_eqb k [slash]).
  - destruct m as [|l]; [reflexivity|]. destruct (assoc _ l); reflexivity.
  - destruct (key_of_string py_int k) as [ko|x]; [|reflexivity]. destruct (k_meter ko); reflexivity.
Qed.

Definition add_lines (old : option (list (line A))) (ls : list (line A)) : option (list (line A)) :=
  match old, ls with None, [] => None | None, _ => Some ls | Some o, _ => Some (o ++ ls) end.
Lemma add_nil old : add_lines old [] = old.
Proof. destruct old as [o|]; cbn [add_lines]; [rewrite app_nil_r|]; reflexivity. Qed.
Lemma add_add old a b : add_lines (add_lines old a) b = add_lines old (a ++ b).
Proof. destruct old as [o|]; destruct a as [|x a]; destruct b as [|y b]; cbn [add_lines List.app]; rewrite ?app_nil_r; try reflexivity. rewrite <- app_assoc. reflexivity. Qed.

Lemma to_csv_cons rows : exists x l, to_csv (A := A) rows = x :: l.
Proof. destruct rows; cbn [to_csv]; eauto. Qed.

Lemma remove_files k st p : ~ csv_erases (A := A) py_int (Remove k) p -> get_file p (fst (csv_remove py_int (empty_dir st) k st)) = get_file p st.
Proof.
  intros Q. cbn [csv_erases] in Q. unfold csv_remove. destruct (key_to_path py_int k) as [d|x] eqn:D; [|reflexivity].
  destruct (get_file d st) as [ls|] eqn:G; cbn [fst].
  - rewrite get_removed. destruct (str_eqb p d) eqn:E; [|reflexivity]. apply str_eqb_spec in E. subst d. exfalso. apply Q. exists p. split; [reflexivity|left; reflexivity].
  - destruct d as [|c d]; [exfalso; apply Q; exists []; split; [reflexivity|right; left; reflexivity]|].
    destruct (existsb _ _ || _); [|reflexivity]. cbn [fst]. rewrite get_rmtree. destruct (startswith (dir_prefix (c :: d)) p) eqn:E; [|reflexivity].
    exfalso. apply Q. exists (c :: d). split; [reflexivity|]. right. right. apply inside_spec in E. destruct (base_split (c :: d)) as [i Ei]. exists (base (c :: d)), i. split; [exact Ei|exact E].
Qed.

Lemma step_quiet e st p : ~ csv_erases py_int e p ->
  get_file p (fst (step e st)) = add_lines (get_file p st)
    (match e with Append q rows => match key_to_path py_int q with Ok p' => if str_eqb p p' then to_csv rows else [] | Err _ => [] end | _ => [] end).
Proof.
  intros Q. destruct e as [q rows|q rows|q|q m]; cbn [csv_step].
  - unfold csv_append. destruct (key_to_path py_int q) as [p'|x]; [|rewrite add_nil; reflexivity]. cbn [fst]. unfold put_file, get_file. cbn [v_files]. rewrite assoc_set. cbn [mkey_eqb].
    destruct (str_eqb p p') eqn:E; [|rewrite add_nil; reflexivity]. apply str_eqb_spec in E. subst p'.
    destruct (assoc (KStr p) (v_files st)) as [o|]; [reflexivity|]. cbn [List.app]. destruct (to_csv_cons rows) as (x & l & ->). reflexivity.
  - rewrite add_nil. cbn [csv_erases] in Q. unfold csv_put. destruct (key_to_path py_int q) as [p'|x]; [|reflexivity]. cbn [fst]. unfold put_file, get_file. cbn [v_files]. rewrite assoc_set. cbn [mkey_eqb].
    destruct (str_eqb p p') eqn:E; [|reflexivity]. apply str_eqb_spec in E. subst p'. exfalso. apply Q. reflexivity.
  - rewrite add_nil. apply remove_files. exact Q.
  - rewrite add_nil. unfold get_file. rewrite save_files. reflexivity.
Qed.

Lemma csv_since h p l : csv_appended py_int p h l -> Forall (fun e => ~ csv_erases py_int e p) h -> forall st,
  get_file p (run h st) = add_lines (get_file p st) l.
Proof.
  induction 1 as [|q rows h l S _ IH|e h l N _ IH]; intros F st; [rewrite add_nil; reflexivity| |].
  - apply Forall_cons_iff in F. destruct F as [F1 F]. cbn [csv_run fold_left]. change (fold_left _ h ?r) with (run h r). rewrite IH by exact F. rewrite step_quiet by exact F1.
    rewrite S, str_eqb_refl. apply add_add.
  - apply Forall_cons_iff in F. destruct F as [F1 F]. cbn [csv_run fold_left]. change (fold_left _ h ?r) with (run h r). rewrite IH by exact F. rewrite step_quiet by exact F1.
    f_equal. destruct e as [q rows| | |]; try apply add_nil. specialize (N q rows eq_refl). destruct (key_to_path py_int q) as [p'|x]; [|apply add_nil].
    destruct (str_eqb p p') eqn:E; [apply str_eqb_spec in E; subst p'; contradiction|apply add_nil].
Qed.

Lemma csv_run_app h1 h2 st : run (h1 ++ h2) st = run h2 (run h1 st).
Proof. apply fold_left_app. Qed.

Lemma csv_after_put h1 q p rows h2 l st : key_to_path py_int q = Ok p -> Forall (fun e => ~ csv_erases py_int e p) h2 -> csv_appended py_int p h2 l ->
  get_file p (run (h1 ++ Put q rows :: h2) st) = Some (to_csv rows ++ l).
Proof.
  intros S F K. rewrite csv_run_app. cbn [csv_run fold_left]. change (fold_left _ h2 ?r) with (run h2 r). change (fold_left _ h1 ?r) with (run h1 r). rewrite (csv_since h2 p l K F).
  cbn [csv_step]. unfold csv_put. rewrite S. cbn [fst]. unfold put_file, get_file. cbn [v_files]. rewrite assoc_set, mkey_eqb_refl. reflexivity.
Qed.

(** What a removal takes away. *)
Lemma remove_gone k p st :
  (exists d, key_to_path py_int k = Ok d /\ (d = p \/ get_file d st = None /\ (d = [] \/ exists d' n, d = d' ++ repeat "/"%char n /\ below d' p))) ->
  get_file p (fst (csv_remove py_int (empty_dir st) k st)) = None.
Proof.
  intros (d & D & C). unfold csv_remove. rewrite D. destruct C as [<-|[G C]].
  - destruct (get_file d st) as [ls|] eqn:G; [cbn [fst]; rewrite get_removed, str_eqb_refl; reflexivity|].
    destruct d as [|c d]; [reflexivity|]. destruct (existsb _ _ || _); [|exact G]. cbn [fst]. rewrite get_rmtree. destruct (startswith _ _); [reflexivity|exact G].
  - rewrite G. destruct d as [|c d]; [reflexivity|]. destruct C as [C|(d' & n & E & B)]; [discriminate|].
    pose proof (base_below _ _ _ _ E B) as S.
    destruct (existsb _ (v_files st) || _) eqn:X; [cbn [fst]; rewrite get_rmtree, S; reflexivity|]. cbn [fst].
    apply Bool.orb_false_iff in X. destruct X as [X _]. destruct (get_file p st) as [ls|] eqn:Gp; [|reflexivity]. exfalso. unfold get_file in Gp. apply assoc_in in Gp.
    assert (Y : existsb (fun f : mkey * list (line A) => match fst f with KStr q => startswith (dir_prefix (c :: d)) q | KInt _ => false end) (v_files st) = true).
    { apply existsb_exists. exists (KStr p, ls). split; [exact Gp|exact S]. }
    rewrite Y in X. discriminate.
Qed.

Lemma csv_after_remove h1 k p h2 l st :
  (exists d, key_to_path py_int k = Ok d /\ (d = p \/ get_file d (run h1 st) = None /\ (d = [] \/ exists d' n, d = d' ++ repeat "/"%char n /\ below d' p))) ->
  Forall (fun e => ~ csv_erases py_int e p) h2 -> csv_appended py_int p h2 l ->
  get_file p (run (h1 ++ Remove k :: h2) st) = match l with [] => None | _ => Some l end.
Proof.
  intros S F K. rewrite csv_run_app. cbn [csv_run fold_left]. change (fold_left _ h2 ?r) with (run h2 r). change (fold_left _ h1 ?r) with (run h1 r). rewrite (csv_since h2 p l K F).
  cbn [csv_step]. rewrite (remove_gone k p (run h1 st) S). destruct l; reflexivity.
Qed.

(** ** Reading *)
Lemma load_lines garbled c k p (rows : list (sample A)) st : key_to_path py_int k = Ok p -> get_file p st = Some (to_csv rows) -> fits c rows ->
  exists cs, csv_load_key py_int garbled tf_cleared c st k = (cs, None) /\ concat (map c_rows cs) = rows.
Proof.
  intros EP G F. unfold csv_load_key. rewrite EP, G. rewrite table_to_csv by (intros ->; destruct F as (_ & L & _); cbn in L; lia).
  apply csv_load_all_rows. exact F.
Qed.

Lemma load_missing garbled c k p st : key_to_path py_int k = Ok p -> get_file p st = None ->
  csv_load_key py_int garbled tf_cleared c st k = ([], Some GenericException) /\ csv_getitem py_int k st = Err KeyError.
Proof. intros EP G. unfold csv_load_key, csv_getitem. rewrite EP. cbn [bind]. rewrite G. split; reflexivity. Qed.

(** ** Metadata *)
Lemma remove_metadata k k' st : key_to_path py_int k <> Ok [] ->
  csv_load_metadata py_int (fst (csv_remove py_int (empty_dir st) k st)) k' = csv_load_metadata py_int st k'.
Proof.
  intros N. unfold csv_remove. destruct (key_to_path py_int k) as [d|x]; [|reflexivity]. destruct (get_file d st); [reflexivity|].
  destruct d as [|c d]; [contradiction|]. destruct (existsb _ _ || _); reflexivity.
Qed.

(** ** Buildings *)
Hypothesis HP : reads_numerals py_int.

Lemma path_building b : (1 <= b)%Z -> key_to_path py_int (absolute [building_name b]) = Ok (building_name b).
Proof.
  intros Hb. unfold key_to_path. rewrite (parse_building py_int HP b Hb). cbn [bind k_meter]. unfold absolute. cbn [map concat List.app]. rewrite eqb_slash, app_nil_r. reflexivity.
Qed.

Lemma meter_below b b' u m : (1 <= b)%Z -> (1 <= b')%Z -> component u ->
  (below (building_name b) (meter_file b' u m) <-> b = b').
Proof.
  intros Hb Hb' Hu. unfold meter_file. cbn [separated]. split.
  - intros [r E]. rewrite <- app_assoc in E.
    assert (X : split_path (building_name b' ++ slash :: ((u ++ slash :: meter_name m) ++ lit ".csv")) = split_path (building_name b ++ slash :: r)) by (f_equal; exact E).
    rewrite !split_cons_app in X by apply (proj2 (building_component _)). injection X as X _. apply (decimal_inj py_int HP); try assumption. symmetry. exact X.
  - intros <-. exists ((u ++ slash :: meter_name m) ++ lit ".csv"). rewrite <- app_assoc. reflexivity.
Qed.

Lemma remove_building b st : (1 <= b)%Z -> get_file (building_name b) st = None ->
  let st' := fst (csv_remove py_int (empty_dir st) (absolute [building_name b]) st) in
  (forall b' u m p, (1 <= b')%Z -> (1 <= m)%Z -> component u -> key_to_path py_int (meter_key b' u m) = Ok p ->
     get_file p st' = if Z.eqb b b' then None else get_file p st) /\
  (forall k, csv_load_metadata py_int st' k = csv_load_metadata py_int st k).
Proof.
  intros Hb G st'. split.
  - intros b' u m p Hb' Hm Hu EP. rewrite (path_meter py_int HP b' u m Hb' Hm Hu) in EP. injection EP as <-. destruct (Z.eqb_spec b b') as [<-|N].
    + apply remove_gone. exists (building_name b). split; [apply path_building; exact Hb|]. right. split; [exact G|]. right. exists (building_name b), 0. split; [cbn [repeat]; rewrite app_nil_r; reflexivity|].
      apply (meter_below b b u m Hb Hb Hu). reflexivity.
    + unfold st', csv_remove. rewrite (path_building b Hb), G. destruct (building_name b) as [|c d] eqn:BE; [discriminate|]. rewrite <- BE. destruct (existsb _ _ || _); [|reflexivity].
      cbn [fst]. rewrite get_rmtree. destruct (startswith (dir_prefix (building_name b)) (meter_file b' u m)) eqn:S; [|reflexivity]. exfalso. apply N.
      apply (meter_below b b' u m Hb Hb' Hu). apply inside_spec in S.
      assert (X : base (building_name b) = building_name b).
      { unfold base, building_name. rewrite rev_app_distr. destruct (decimal_nonempty py_int b HP Hb) as (s & x & E). rewrite E, rev_app_distr. cbn [rev List.app].
        rewrite lstrip_id; [|]. { cbn [rev]. rewrite rev_app_distr, !rev_involutive, <- app_assoc. reflexivity. }
        intros ->. apply (digits_no_slash (decimal b) (decimal_digits b)). rewrite E. apply in_or_app. right. left. reflexivity. }
      rewrite X in S. exact S.
  - intros k. apply remove_metadata. rewrite (path_building b Hb). discriminate.
Qed.

End Proofs.
