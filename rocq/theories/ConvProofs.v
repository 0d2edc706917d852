From Coq Require Import Ascii String Sorted.
From Verif Require Import Base TimeFrameModel TimeFrameSpec TimeFrameProofs StoreModel StoreSpec StoreProofs StoreProofs2
  KeyModel KeySpec KeyProofs ConvModel ConvSpec.
Import List.
Open Scope list_scope.
Open Scope nat_scope.

(** ** Dictionaries *)
Lemma str_eqb_spec a b : str_eqb a b = true <-> a = b.
Proof. unfold str_eqb. destruct (list_eq_dec Ascii.ascii_dec a b); split; congruence. Qed.
Lemma str_eqb_refl a : str_eqb a a = true.
Proof. apply str_eqb_spec. reflexivity. Qed.
Lemma str_eqb_neq a b : a <> b -> str_eqb a b = false.
Proof. intros H. destruct (str_eqb a b) eqn:E; [|reflexivity]. apply str_eqb_spec in E. contradiction. Qed.

Lemma mkey_eqb_spec a b : mkey_eqb a b = true <-> a = b.
Proof.
  destruct a as [s|n], b as [t|m]; cbn; try (split; discriminate).
  - rewrite str_eqb_spec. split; congruence.
  - rewrite Z.eqb_eq. split; congruence.
Qed.
Lemma mkey_eqb_refl a : mkey_eqb a a = true.
Proof. apply mkey_eqb_spec. reflexivity. Qed.
Lemma mkey_eqb_neq a b : a <> b -> mkey_eqb a b = false.
Proof. intros H. destruct (mkey_eqb a b) eqn:E; [|reflexivity]. apply mkey_eqb_spec in E. contradiction. Qed.

Lemma assoc_set {V} k (v : V) l k' : assoc k' (set_assoc k v l) = if mkey_eqb k' k then Some v else assoc k' l.
Proof.
  induction l as [|[a w] l IH]; cbn [set_assoc assoc]; [reflexivity|].
  destruct (mkey_eqb k a) eqn:E; cbn [assoc].
  - apply mkey_eqb_spec in E. subst a. destruct (mkey_eqb k' k); reflexivity.
  - destruct (mkey_eqb k' a) eqn:E2; [|exact IH]. apply mkey_eqb_spec in E2. subst a.
    rewrite mkey_eqb_neq; [reflexivity|]. intros ->. rewrite mkey_eqb_refl in E. discriminate.
Qed.

Lemma set_set {V} k (v w : V) l : set_assoc k v (set_assoc k w l) = set_assoc k v l.
Proof.
  induction l as [|[a x] l IH]; cbn [set_assoc]; [rewrite mkey_eqb_refl; reflexivity|].
  destruct (mkey_eqb k a) eqn:E; cbn [set_assoc]; rewrite E; [reflexivity|]. rewrite IH. reflexivity.
Qed.

Lemma set_same {V} k (v : V) l : assoc k l = Some v -> set_assoc k v l = l.
Proof.
  induction l as [|[a x] l IH]; cbn [set_assoc assoc]; [discriminate|].
  destruct (mkey_eqb k a) eqn:E; [intros [= ->]; reflexivity|]. intros H. rewrite IH by exact H. reflexivity.
Qed.

Lemma assoc_del {V} k (l : list (mkey * V)) k' : NoDup (map fst l) ->
  assoc k' (del_assoc k l) = if mkey_eqb k' k then None else assoc k' l.
Proof.
  induction l as [|[a x] l IH]; cbn [del_assoc assoc map fst]; intros ND; [destruct (mkey_eqb k' k); reflexivity|].
  apply NoDup_cons_iff in ND. destruct ND as [NI ND]. specialize (IH ND).
  destruct (mkey_eqb k a) eqn:E; cbn [assoc].
  - apply mkey_eqb_spec in E. subst a. destruct (mkey_eqb k' k) eqn:E2; [|reflexivity]. apply mkey_eqb_spec in E2. subst k'.
    clear - NI. induction l as [|[b y] l IH]; [reflexivity|]. cbn [assoc]. rewrite mkey_eqb_neq.
    + apply IH. intros K. apply NI. right. exact K.
    + intros ->. apply NI. left. reflexivity.
  - destruct (mkey_eqb k' a) eqn:E2; [|exact IH]. apply mkey_eqb_spec in E2. subst a.
    rewrite mkey_eqb_neq; [reflexivity|]. intros ->. rewrite mkey_eqb_refl in E. discriminate.
Qed.

Lemma assoc_del_other {V} k (l : list (mkey * V)) k' : k' <> k -> assoc k' (del_assoc k l) = assoc k' l.
Proof.
  intros H. induction l as [|[a x] l IH]; [reflexivity|]. cbn [del_assoc]. destruct (mkey_eqb k a) eqn:E.
  - apply mkey_eqb_spec in E. subst a. cbn [assoc]. rewrite mkey_eqb_neq by exact H. reflexivity.
  - cbn [assoc]. rewrite IH. reflexivity.
Qed.

Lemma assoc_in {V} k (v : V) l : assoc k l = Some v -> In (k, v) l.
Proof.
  induction l as [|[a x] l IH]; cbn [assoc]; [discriminate|]. destruct (mkey_eqb k a) eqn:E; [|intros H; right; exact (IH H)].
  intros [= ->]. apply mkey_eqb_spec in E. subst. left. reflexivity.
Qed.
Lemma in_assoc {V} k (v : V) l : NoDup (map fst l) -> In (k, v) l -> assoc k l = Some v.
Proof.
  induction l as [|[a x] l IH]; cbn [assoc map fst]; intros ND H; [destruct H|]. apply NoDup_cons_iff in ND. destruct ND as [NI ND].
  destruct H as [[= -> ->]|H]; [rewrite mkey_eqb_refl; reflexivity|]. rewrite mkey_eqb_neq; [exact (IH ND H)|].
  intros ->. apply NI. apply in_map_iff. exists (a, v). split; [reflexivity|exact H].
Qed.

(** ** Trees *)
Section Trees.
Context {A : Type}.
Implicit Types (n c root : node A).

Lemma child_set s n (l : list (str * node A)) t : child t (set_child s n l) = if str_eqb t s then Some n else child t l.
Proof.
  induction l as [|[a w] l IH]; cbn [set_child child]; [reflexivity|].
  destruct (str_eqb s a) eqn:E; cbn [child].
  - apply str_eqb_spec in E. subst a. destruct (str_eqb t s); reflexivity.
  - destruct (str_eqb t a) eqn:E2; [|exact IH]. apply str_eqb_spec in E2. subst a.
    rewrite str_eqb_neq; [reflexivity|]. intros ->. rewrite str_eqb_refl in E. discriminate.
Qed.

Lemma child_in s n (l : list (str * node A)) : child s l = Some n -> In (s, n) l.
Proof.
  induction l as [|[a x] l IH]; cbn [child]; [discriminate|]. destruct (str_eqb s a) eqn:E; [|intros H; right; exact (IH H)].
  intros [= ->]. apply str_eqb_spec in E. subst. left. reflexivity.
Qed.
Lemma in_child s n (l : list (str * node A)) : unique l -> In (s, n) l -> child s l = Some n.
Proof.
  unfold unique. induction l as [|[a x] l IH]; cbn [child map fst]; intros ND H; [destruct H|]. apply NoDup_cons_iff in ND. destruct ND as [NI ND].
  destruct H as [[= -> ->]|H]; [rewrite str_eqb_refl; reflexivity|]. rewrite str_eqb_neq; [exact (IH ND H)|].
  intros ->. apply NI. apply in_map_iff. exists (a, n). split; [reflexivity|exact H].
Qed.

Lemma find_update f n p : forall q, find_node (update_node f n p) q =
  match p, q with
  | [], _ => find_node (f n) q
  | s :: r, [] => Some (update_node f n p)
  | s :: r, t :: q' =>
      if str_eqb t s then find_node (update_node f (match child s (n_children n) with None => Node None None [] | Some c => c end) r) q'
      else find_node n q
  end.
Proof.
  destruct p as [|s r]; intros q; cbn [update_node]; [reflexivity|]. destruct q as [|t q']; [reflexivity|].
  cbn [find_node n_children]. rewrite child_set. destruct (str_eqb t s) eqn:E; reflexivity.
Qed.

(** What a path reaches after an update at [p]: the updated node at [p]
    itself; the same table and metadata anywhere not at or below [p], except
    that groups were created on the way to [p]. *)
Lemma update_at f p : forall n, find_node (update_node f n p) p =
  Some (f (match find_node n p with None => Node None None [] | Some c => c end)).
Proof.
  induction p as [|s r IH]; intros n; [reflexivity|].
  rewrite find_update, str_eqb_refl, IH. cbn [find_node]. destruct (child s (n_children n)) as [c|]; [reflexivity|].
  destruct r; reflexivity.
Qed.

Lemma find_empty (p : list str) : p <> [] -> find_node (Node None None [] : node A) p = None.
Proof. destruct p; [contradiction|reflexivity]. Qed.

Lemma update_elsewhere f p : forall n q, (forall r, q <> p ++ r) -> 
  (exists c, find_node n q = Some c /\ exists c', find_node (update_node f n p) q = Some c' /\ n_table c' = n_table c /\ n_meta c' = n_meta c) \/
  (find_node n q = None /\ (find_node (update_node f n p) q = None \/
     exists c', find_node (update_node f n p) q = Some c' /\ n_table c' = None /\ n_meta c' = None)).
Proof.
  induction p as [|s r IH]; intros n q Hq; [exfalso; apply (Hq q); reflexivity|].
  rewrite find_update. destruct q as [|t q].
  - left. exists n. split; [reflexivity|]. eexists. split; [reflexivity|]. split; reflexivity.
  - destruct (str_eqb t s) eqn:E.
    + apply str_eqb_spec in E. subst t. cbn [find_node].
      assert (Hq' : forall x, q <> r ++ x) by (intros x K; apply (Hq x); cbn; rewrite K; reflexivity).
      destruct (child s (n_children n)) as [c|]; [exact (IH c q Hq')|].
      right. split; [reflexivity|]. destruct (IH (Node None None []) q Hq') as [(c & F & c' & G & T & M)|[_ K]]; [|exact K].
      right. exists c'. split; [exact G|]. destruct q as [|t q]; [cbn in F; injection F as <-; split; assumption|]. rewrite find_empty in F by discriminate. discriminate.
    + destruct (find_node n (t :: q)) as [c|] eqn:F; [left; exists c; split; [reflexivity|]; exists c; auto|right; auto].
Qed.

End Trees.

(** ** Keys *)
Lemma absolute_cons c l : absolute (c :: l) = slash :: c ++ match l with [] => [] | _ => absolute l end.
Proof. destruct l as [|d l]; unfold absolute; cbn [map concat app]; reflexivity. Qed.

Lemma split_separated l : Forall component l -> l <> [] -> split_path (separated l) = l.
Proof.
  induction l as [|c l IH]; intros H N; [contradiction|]. apply Forall_cons_iff in H. destruct H as [[_ Hc] Hl].
  destruct l as [|d l]; [cbn [separated]; apply split_one; exact Hc|].
  change (separated (c :: d :: l)) with (c ++ slash :: separated (d :: l)). rewrite split_cons_app by exact Hc. rewrite IH by (exact Hl || discriminate). reflexivity.
Qed.

Lemma strip_absolute l : Forall component l -> l <> [] -> strip (absolute l) = separated l.
Proof.
  intros H N. rewrite <- separated_slash by exact N. pose proof (strip_repeat 1 (separated l) 0 (separated_bare l H)) as E.
  cbn [repeat app] in E. rewrite app_nil_r in E. exact E.
Qed.

Lemma parts_separated l : Forall component l -> l <> [] -> key_parts (separated l) = l.
Proof.
  intros H N. unfold key_parts. rewrite strip_id by (apply separated_bare; exact H).
  destruct (separated l) as [|a s] eqn:E; [apply separated_nil in E; [contradiction|exact H]|]. rewrite <- E. apply split_separated; assumption.
Qed.

Lemma parts_absolute l : Forall component l -> l <> [] -> key_parts (absolute l) = l.
Proof.
  intros H N. unfold key_parts. rewrite strip_absolute by assumption.
  destruct (separated l) as [|a s] eqn:E; [apply separated_nil in E; [contradiction|exact H]|]. rewrite <- E. apply split_separated; assumption.
Qed.

Lemma absolute_inj l l' : Forall component l -> Forall component l' -> l <> [] -> l' <> [] -> absolute l = absolute l' -> l = l'.
Proof. intros H H' N N' E. rewrite <- (parts_absolute l H N), E. apply parts_absolute; assumption. Qed.

Section PyInt.
Variable py_int : str -> option Z.
Hypothesis HP : reads_numerals py_int.

Lemma building_component b : component (building_name b).
Proof.
  split; [discriminate|]. intros K. apply in_app_or in K. destruct K as [K|K]; [cbn in K; intuition discriminate|]. exact (digits_no_slash _ (decimal_digits b) K).
Qed.
Lemma meter_component b : component (meter_name b).
Proof.
  split; [discriminate|]. intros K. apply in_app_or in K. destruct K as [K|K]; [cbn in K; intuition discriminate|]. exact (digits_no_slash _ (decimal_digits b) K).
Qed.

Lemma building_removed b : remove_all (lit "building") (building_name b) = decimal b.
Proof. unfold building_name. rewrite lit_building. apply remove_prefix; [exact b_not_digit|apply decimal_digits]. Qed.
Lemma meter_removed b : remove_all (lit "meter") (meter_name b) = decimal b.
Proof. unfold meter_name. rewrite lit_meter. apply remove_prefix; [exact m_not_digit|apply decimal_digits]. Qed.

Lemma parse_meter b u m : (1 <= b)%Z -> (1 <= m)%Z -> component u ->
  key_of_string py_int (meter_key b u m) = Ok (mkKey b (Some m) (Some u)).
Proof.
  intros Hb Hm Hu. unfold key_of_string, meter_key. rewrite strip_absolute.
  2:{ constructor; [apply building_component|]. constructor; [exact Hu|]. constructor; [apply meter_component|constructor]. }
  2: discriminate.
  rewrite split_separated.
  2:{ constructor; [apply building_component|]. constructor; [exact Hu|]. constructor; [apply meter_component|constructor]. }
  2: discriminate.
  cbn [hd]. unfold building_name at 1. rewrite startswith_app. cbn [negb]. rewrite building_removed, (HP b Hb).
  unfold meter_name at 1. rewrite startswith_app. cbn [negb]. rewrite meter_removed, (HP m Hm). cbn [bind].
  apply check_valid. split; [exact Hb|]. cbn [k_meter]. intros m' [= <-]. exact Hm.
Qed.

Lemma parse_building b : (1 <= b)%Z -> key_of_string py_int (absolute [building_name b]) = Ok (mkKey b None None).
Proof.
  intros Hb. unfold key_of_string. rewrite strip_absolute by (discriminate || (constructor; [apply building_component|constructor])).
  cbn [separated]. rewrite split_one by apply (proj2 (building_component b)).
  cbn [hd]. unfold building_name at 1. rewrite startswith_app. cbn [negb]. rewrite building_removed, (HP b Hb). cbn [bind].
  apply check_valid. split; [exact Hb|]. cbn [k_meter]. discriminate.
Qed.

(** The file of a meter. *)
Definition meter_file (b : Z) (u : str) (m : Z) : str := separated [building_name b; u; meter_name m] ++ lit ".csv".

Lemma path_meter b u m : (1 <= b)%Z -> (1 <= m)%Z -> component u -> key_to_path py_int (meter_key b u m) = Ok (meter_file b u m).
Proof.
  intros Hb Hm Hu. unfold key_to_path. rewrite parse_meter by assumption. cbn [bind k_meter].
  unfold meter_key, meter_file. rewrite <- separated_slash by discriminate. cbn [length]. rewrite eqb_slash.
  destruct (separated [building_name b; u; meter_name m]) as [|a s] eqn:E; [discriminate|]. reflexivity.
Qed.

Lemma decimal_inj n m : (1 <= n)%Z -> (1 <= m)%Z -> decimal n = decimal m -> n = m.
Proof. intros H H' E. pose proof (HP n H) as K. rewrite E, (HP m H') in K. congruence. Qed.

Lemma meter_file_inj b u m b' u' m' : (1 <= b)%Z -> (1 <= m)%Z -> component u -> (1 <= b')%Z -> (1 <= m')%Z -> component u' ->
  meter_file b u m = meter_file b' u' m' -> b = b' /\ u = u' /\ m = m'.
Proof.
  intros Hb Hm Hu Hb' Hm' Hu' E. unfold meter_file in E. apply app_inv_tail in E.
  assert (K : [building_name b; u; meter_name m] = [building_name b'; u'; meter_name m']).
  { assert (F : forall b u m, component u -> Forall component [building_name b; u; meter_name m]).
    { intros. constructor; [apply building_component|]. constructor; [assumption|]. constructor; [apply meter_component|constructor]. }
    rewrite <- (split_separated [building_name b; u; meter_name m]) by (discriminate || auto). rewrite E. apply split_separated; [auto|discriminate]. }
  injection K as K1 K2 K3.
  split; [|split]; [|exact K2|]; apply decimal_inj; assumption.
Qed.

End PyInt.

Lemma name_not_cache m : str_eqb (meter_name m) (lit "cache") = false.
Proof. apply str_eqb_neq. discriminate. Qed.

(** ** Loops *)
Lemma each_inv {S X} (f : X -> S -> S * option exn) (I : list X -> S -> Prop) (l : list X) s :
  (forall pre x post s, l = pre ++ x :: post -> I pre s -> exists s', f x s = (s', None) /\ I (pre ++ [x]) s') ->
  I [] s -> exists s', each f l s = (s', None) /\ I l s'.
Proof.
  intros Step H0.
  assert (G : forall post pre s, l = pre ++ post -> I pre s -> exists s', each f post s = (s', None) /\ I l s').
  { induction post as [|x post IH]; intros pre s1 E H.
    - rewrite app_nil_r in E. subst pre. exists s1. split; [reflexivity|exact H].
    - destruct (Step pre x post s1 E H) as (s2 & E2 & H2). cbn [each]. rewrite E2.
      apply (IH (pre ++ [x])); [rewrite <- app_assoc; exact E|exact H2]. }
  exact (G l [] s eq_refl H0).
Qed.

(** ** Loading *)
Lemma cleared_meet : intersection tf_cleared tf_cleared = Ok tf_cleared.
Proof. reflexivity. Qed.

Lemma load_single {A} (rows : list (sample A)) c : fits c rows ->
  exists t, hdf_load rows tf_cleared (default_sections None) 0 c = ([mkChunk rows None t], None).
Proof.
  intros (Inc & L1 & L2). cbn [default_sections hdf_load]. unfold hdf_load_section. rewrite cleared_meet. cbn [tf_empty tf_cleared query_terms tf_start tf_end].
  replace (query_terms tf_cleared) with (Ok (@None (option Z * option (Z * bool)))) by reflexivity.
  replace (Nat.leb (length rows) 1) with false by (symmetry; apply Nat.leb_gt; lia).
  unfold hdf_range. replace (Nat.eqb c 0) with false by (symmetry; apply Nat.eqb_neq; lia).
  unfold py_range. rewrite Nat.sub_0_r, ceil_div_small by lia. cbn [seq map Nat.mul Nat.add hdf_chunks Nat.sub].
  replace (Nat.ltb 0 0) with false by reflexivity.
  assert (E : (if Nat.ltb (length rows) c then length rows else c) = length rows).
  { destruct (Nat.ltb (length rows) c) eqn:E; [reflexivity|]. apply Nat.ltb_ge in E. lia. }
  rewrite E. assert (ES : select rows 0 (Datatypes.S (length rows)) = rows).
  { unfold select. cbn [skipn]. rewrite Nat.sub_0_r. apply firstn_all2. lia. }
  rewrite ES. unfold timeframe_for_chunk. cbn [Nat.eqb tf_start tf_end tf_cleared].
  destruct rows as [|x r]; [cbn in L1; lia|]. cbn [map]. cbn [bind].
  change (fst x :: map fst r) with (map fst (x :: r)). rewrite last_opt_map.
  destruct r as [|y r]; [cbn in L1; lia|].
  destruct (last_opt_some x (y :: r)) as [z Ez]. rewrite Ez. cbn [option_map bind].
  assert (Hz : (fst x < fst z)%Z).
  { apply increasing_sorted in Inc. apply StronglySorted_inv in Inc. destruct Inc as [_ F].
    assert (In z (y :: r)).
    { clear - Ez. change (last_opt (y :: r) = Some z) in Ez. revert y Ez. induction r as [|w r IH]; intros y Ez; [injection Ez as <-; left; reflexivity|]. right. exact (IH w Ez). }
    rewrite Forall_forall in F. exact (F z H). }
  destruct (mk_bounded (fst x) (fst z) Hz) as (t & Et & _). exists t. cbv beta iota zeta delta [tf_cleared tf_start tf_end tf_enabled tf_start_ tf_end_ Nat.ltb Nat.leb bind]. rewrite Et. reflexivity.
Qed.

Lemma visible_all {A} (rows : list (sample A)) : visible rows tf_cleared tf_cleared rows.
Proof.
  unfold visible. induction rows as [|x r IH]; constructor; [|exact IH].
  split; (split; [reflexivity|]); cbn; repeat split; intros; discriminate.
Qed.

Lemma csv_load_all_rows {A} (rows : list (sample A)) c : fits c rows ->
  exists cs, csv_load rows tf_cleared (default_sections None) 0 c = (cs, None) /\ concat (map c_rows cs) = rows.
Proof.
  intros (Inc & L1 & L2).
  destruct (csv_load_all rows tf_cleared 0 c [rows] Inc ltac:(lia)) with (sections := [tf_cleared]) (ms := [rows]) as (css & E & F).
  - apply cut_last; [intros ->; cbn in L1; lia|exact L2].
  - constructor; [apply visible_all|constructor].
  - intros s b k [<-|[]] [<-|[]] V. pose proof (is_filter_unique _ _ _ _ V (visible_all rows)) as ->. lia.
  - exists (concat css). split; [exact E|]. inversion F as [|m cs l l' H F']; subst. inversion F'; subst. destruct H as [H _].
    cbn [concat]. rewrite app_nil_r. exact H.
Qed.

Lemma data_rows {A} (rows : list (sample A)) : data_lines (map Row rows) = Some rows.
Proof. induction rows as [|x r IH]; [reflexivity|]. cbn [map data_lines]. rewrite IH. reflexivity. Qed.
Lemma table_to_csv {A} (rows : list (sample A)) : rows <> [] -> csv_table (to_csv rows) = Some rows.
Proof. destruct rows as [|x r]; [contradiction|]. intros _. cbn [to_csv csv_table]. apply data_rows. Qed.
