From Coq Require Import Ascii String DecimalString DecimalN Lia Bool.
From Verif Require Import Base TimeFrameModel TimeFrameSpec SortLib StoreModel StoreSpec ResultsModel ResultsSpec ResultsProofs EnergyModel EnergyProofs EnergyProofs2 KeyModel KeySpec KeyProofs CacheModel CacheSpec.
Import List.
Open Scope list_scope.
Open Scope Z_scope.

Lemma same_energies_equivalence : equivalence same_energies.
Proof. split; [intros a; repeat split|]. split; unfold same_energies; intuition congruence. Qed.
Lemma eq_equivalence {A} : equivalence (@eq A).
Proof. split; [reflexivity|]. split; congruence. Qed.
Lemma energy_faithful t : equivalent_tables same_energies t (energy_export t).
Proof.
  unfold energy_export. generalize (has_col en_active t) (has_col en_reactive t) (has_col en_apparent t). intros a r p. induction t as [|x t IH]; [constructor|]. cbn [map]. constructor; [|exact IH]. cbn. split; [reflexivity|]. split; [reflexivity|]. unfold same_energies. cbn. destruct (en_active (r_val x)), (en_reactive (r_val x)), (en_apparent (r_val x)), a, r, p; cbn; auto.
Qed.
Lemma energy_storable stat : storable energy_stat stat same_energies [].
Proof. intros t _. split; [apply energy_faithful|]. intros _ ks _ a []. Qed.
Lemma dropout_storable stat ac : storable dropout_stat stat eq ac.
Proof. intros t _. split; [|discriminate]. cbn. induction t as [|x t IH]; constructor; [auto|exact IH]. Qed.
(** Equal energies, with the energy of type [a] there in both or in neither. *)
Definition same_for (a : actype) (x y : energies) : Prop := same_energies x y /\ en_get a x = en_get a y.
Lemma same_for_equivalence a : equivalence (same_for a).
Proof. unfold same_for, same_energies. split; [intros x; repeat split|]. split; intuition congruence. Qed.
Lemma single_storable stat a : (forall s e v, stat s e = Some v -> en_get a v <> None) -> storable energy_stat stat (same_for a) [a].
Proof.
  intros H t F. split.
  - assert (X : forall l c1 c2 c3, Forall (true_row stat (same_for a)) l -> equivalent_tables (same_for a) l (map (fun r => mkRow (r_start r) (r_end r) (mkEn (fill_zero c1 (en_active (r_val r))) (fill_zero c2 (en_reactive (r_val r))) (fill_zero c3 (en_apparent (r_val r))))) l)); [|apply X, F].
    intros l c1 c2 c3 L. induction L as [|r l (s & e & v & _ & _ & _ & ST & _ & EV) L IH]; [constructor|]. cbn [map]. constructor; [|exact IH]. split; [reflexivity|]. split; [reflexivity|]. assert (N := H s e v ST). rewrite <- EV in N. unfold same_for, same_energies. destruct (r_val r) as [x y z]. destruct a, x, y, z; cbn in *; try congruence; destruct c1, c2, c3; cbn; auto.
  - intros NE ks K b [<-|[]]. cbn in K. injection K as <-. destruct F as [|r l (s & e & v & _ & _ & _ & ST & _ & EV) L]; [congruence|]. assert (N := H s e v ST). rewrite <- EV in N. unfold energy_columns, has_col. destruct a; cbn [existsb en_get] in *; [destruct (en_active (r_val r)); [|congruence]|destruct (en_apparent (r_val r)); [|congruence]|destruct (en_reactive (r_val r)); [|congruence]]; cbn; rewrite ?in_app_iff; cbn; tauto.
Qed.
Lemma or_zero_sum (f : energies -> option Z) t u : Forall2 (fun r q : row energies => or_zero (f (r_val r)) = or_zero (f (r_val q))) t u ->
  osum (map (fun r => f (r_val r)) t) = osum (map (fun r => f (r_val r)) u).
Proof. induction 1 as [|r q t u E F IH]; [reflexivity|]. cbn. destruct (f (r_val r)), (f (r_val q)); cbn in *; try rewrite IH; try subst; lia. Qed.
Lemma same_combined t u : equivalent_tables same_energies t u -> energy_combined t = energy_combined u.
Proof.
  intros F. unfold energy_combined. f_equal; [f_equal|]; apply or_zero_sum; (induction F as [|r q t u (_ & _ & E1 & E2 & E3) F IH]; constructor; assumption).
Qed.

(** ** Keys *)
Lemma decimal_inj n m : 0 <= n -> 0 <= m -> decimal n = decimal m -> n = m.
Proof.
  intros N M E. set (py_int := fun s => match NilEmpty.uint_of_string (string_of_list_ascii s) with Some u => Some (Z.of_N (N.of_uint u)) | None => None end).
  assert (X : forall k, 0 <= k -> py_int (decimal k) = Some k) by (intros k K; unfold py_int, decimal, lit; rewrite string_of_list_ascii_of_string, NilEmpty.usu, DecimalN.Unsigned.of_to; f_equal; lia).
  assert (Y := X n N). rewrite E, (X m M) in Y. congruence.
Qed.
(** Text before the first character that cannot occur in it. *)
Lemma cut_at (P : ascii -> Prop) c a b a' b' : Forall P a -> Forall P a' -> ~ P c -> a ++ c :: b = a' ++ c :: b' -> a = a' /\ b = b'.
Proof.
  intros F F' N. revert a' F'. induction F as [|x a X F IH]; intros a' F' E; destruct F' as [|y a' Y F']; cbn in E.
  - injection E as E. auto.
  - injection E as E1 E2. subst y. contradiction.
  - injection E as E1 E2. subst x. contradiction.
  - injection E as E1 E2. subst y. destruct (IH a' F' E2) as [-> ->]. auto.
Qed.
Lemma cut_end (P : ascii -> Prop) c a b a' : Forall P a' -> ~ P c -> a ++ c :: b = a' -> False.
Proof. intros F N E. subst a'. apply Forall_app in F. destruct F as [_ F]. apply Forall_cons_iff in F. tauto. Qed.
Definition underscore : ascii := "_"%char.
Lemma underscore_not_digit : ~ is_digit underscore. Proof. unfold is_digit. cbn. intuition discriminate. Qed.
Lemma join_cons x y r : join_underscore (x :: y :: r) = x ++ underscore :: join_underscore (y :: r).
Proof. reflexivity. Qed.
Lemma join_inj l : forall l', l <> [] -> l' <> [] -> Forall (fun n => 0 <= n) l -> Forall (fun n => 0 <= n) l' -> join_underscore (map decimal l) = join_underscore (map decimal l') -> l = l'.
Proof.
  induction l as [|x l IH]; intros l' N N' F F' E; [congruence|]. destruct l' as [|x' l']; [congruence|]. apply Forall_cons_iff in F, F'. destruct F as [X F], F' as [X' F']. cbn [map] in E. destruct l as [|y l], l' as [|y' l'].
  - cbn in E. apply decimal_inj in E; congruence.
  - exfalso. cbn [map] in E. rewrite join_cons in E. cbn [join_underscore] in E. symmetry in E. apply (cut_end is_digit underscore _ _ _ (decimal_digits x) underscore_not_digit E).
  - exfalso. cbn [map] in E. rewrite join_cons in E. cbn [join_underscore] in E. apply (cut_end is_digit underscore _ _ _ (decimal_digits x') underscore_not_digit E).
  - cbn [map] in E. rewrite !join_cons in E. apply (cut_at is_digit) in E; [|apply decimal_digits|apply decimal_digits|apply underscore_not_digit]. destruct E as [E1 E2]. apply decimal_inj in E1; [|exact X|exact X']. subst x'. f_equal. apply IH; [discriminate|discriminate|exact F|exact F'|exact E2].
Qed.
Lemma meter_str_inj i i' : proper_instance i -> proper_instance i' -> meter_str i = meter_str i' -> i = i'.
Proof.
  destruct i as [n|l], i' as [n'|l']; cbn [proper_instance meter_str]; intros P P' E.
  - apply decimal_inj in E; congruence.
  - destruct P' as [L F]. assert (X : [n] = l') by (apply join_inj; [discriminate|destruct l'; cbn in L; [lia|discriminate]|repeat constructor; exact P|exact F|exact E]). subst l'. cbn in L. lia.
  - destruct P as [L F]. assert (X : l = [n']) by (apply join_inj; [destruct l; cbn in L; [lia|discriminate]|discriminate|exact F|repeat constructor; exact P'|exact E]). subst l. cbn in L. lia.
  - destruct P as [L F], P' as [L' F']. f_equal. apply join_inj; [destruct l; cbn in L; [lia|discriminate]|destruct l'; cbn in L'; [lia|discriminate]|exact F|exact F'|exact E].
Qed.
Definition meter_char (c : ascii) : Prop := is_digit c \/ c = underscore.
Lemma join_chars l : Forall meter_char (join_underscore (map decimal l)).
Proof.
  assert (D : forall n, Forall meter_char (decimal n)) by (intros n; eapply Forall_impl; [|apply decimal_digits]; left; assumption).
  induction l as [|x l IH]; [constructor|]. destruct l as [|y l]; [apply D|]. cbn [map] in *. rewrite join_cons. apply Forall_app. split; [apply D|]. constructor; [right; reflexivity|exact IH].
Qed.
Lemma meter_chars i : Forall meter_char (meter_str i).
Proof. destruct i as [n|l]; [apply (join_chars [n])|apply join_chars]. Qed.
Lemma slash_not_digit : ~ is_digit slash. Proof. unfold is_digit. cbn. intuition discriminate. Qed.
Lemma slash_not_meter : ~ meter_char slash. Proof. intros [H|H]; [apply slash_not_digit, H|discriminate]. Qed.
Lemma key_shape m s : key_for_cached_stat m s = lit "building" ++ decimal (id_building m) ++ slash :: (lit "elec/cache/meter" ++ (meter_str (id_instance m) ++ slash :: s)).
Proof. reflexivity. Qed.
Lemma keys_thm m m' s s' : proper_id m -> proper_id m' -> key_for_cached_stat m s = key_for_cached_stat m' s' -> id_building m = id_building m' /\ id_instance m = id_instance m' /\ s = s'.
Proof.
  intros [B I] [B' I'] E. rewrite !key_shape in E. apply app_inv_head in E. apply (cut_at is_digit) in E; [|apply decimal_digits|apply decimal_digits|apply slash_not_digit]. destruct E as [E1 E2]. apply app_inv_head in E2. apply (cut_at meter_char) in E2; [|apply meter_chars|apply meter_chars|apply slash_not_meter]. destruct E2 as [E2 E3]. split; [apply decimal_inj; assumption|]. split; [apply meter_str_inj; assumption|exact E3].
Qed.
Lemma startswith_iff p : forall s, startswith p s = true <-> exists r, s = p ++ r.
Proof.
  induction p as [|c p IH]; intros s; [cbn; split; [intros _; exists s; reflexivity|reflexivity]|]. destruct s as [|d s]; cbn [startswith]; [split; [discriminate|intros (r & H); discriminate]|]. rewrite andb_true_iff, Ascii.eqb_eq, IH. split.
  - intros [-> (r & ->)]. exists r. reflexivity.
  - intros (r & H). cbn in H. injection H as -> ->. split; [reflexivity|]. exists r. reflexivity.
Qed.
Lemma clear_thm m m' s : proper_id m -> proper_id m' -> (startswith (key_for_cached_stat m []) (key_for_cached_stat m' s) = true <-> id_building m = id_building m' /\ id_instance m = id_instance m').
Proof.
  intros P P'. rewrite startswith_iff. split.
  - intros (r & E). assert (X : key_for_cached_stat m [] ++ r = key_for_cached_stat m r) by (unfold key_for_cached_stat; rewrite <- !app_assoc; reflexivity). rewrite X in E. apply keys_thm in E; [|exact P'|exact P]. intuition congruence.
  - intros [B I]. exists s. unfold key_for_cached_stat. rewrite <- !app_assoc, B, I. reflexivity.
Qed.

(** ** The HDF store, with chunks long enough *)
Lemma last_in {A} (l : list A) z : last_opt l = Some z -> In z l.
Proof. induction l as [|x l IH]; [discriminate|]. destruct l as [|y l]; [cbn; intros H; left; congruence|]. intros H. right. apply IH, H. Qed.
Definition plain (s e : Z) : tf := mkTF (Some s) (Some e) true false false.
Lemma inside_intersection window t s e : inside window t -> bounded t s e -> intersection window t = Ok (plain s e).
Proof.
  intros (_ & HO & IN) B. destruct B as (S & E & N & L).
  assert (IT : forall i, s <= i < e -> inTF window i) by (intros i I; apply IN; split; [exact N|]; split; intros x X; [assert (x = s) by congruence|assert (x = e) by congruence]; lia).
  destruct (IT s ltac:(lia)) as (NW & LO & _). destruct (IT (e - 1) ltac:(lia)) as (_ & _ & HI). unfold intersection. rewrite NW, N. cbn [orb].
  assert (X1 : isect_start window t = Some s).
  { unfold isect_start. rewrite S. destruct (tf_start window) as [x|] eqn:W; [|reflexivity]. specialize (LO x eq_refl). cbn. f_equal. lia. }
  assert (X2 : isect_end window t = Some e).
  { unfold isect_end. rewrite E. destruct (tf_end window) as [x|] eqn:W; [|reflexivity]. specialize (HI x eq_refl). cbn. f_equal. lia. }
  assert (X3 : isect_incl window t = false) by (unfold isect_incl; rewrite X2, E; cbn; rewrite Z.eqb_refl; exact HO).
  rewrite X1, X2, X3. replace (s >=? e) with false by lia. unfold mk_flags, mk. cbn. replace (e <=? s) with false by lia. reflexivity.
Qed.
(** What a section gives depends only on its bounds; one chunk at most. *)
Definition span {A} (rows : list (sample A)) (s e : Z) (c : nat) : gen (chunk A) :=
  match coords_from 0 (Some (Some s, Some (e, false))) rows with
  | [] => ([mkChunk [] None (plain s e)], None)
  | c0 :: cs => match last_opt (c0 :: cs) with None => ([], Some IndexError) | Some cl => hdf_range rows (plain s e) 0 c c0 cl end
  end.
Lemma load_span {A} (rows : list (sample A)) window t s e c : inside window t -> bounded t s e -> hdf_load_section rows window t 0 c = span rows s e c.
Proof. intros IN B. unfold hdf_load_section. rewrite (inside_intersection window t s e IN B). reflexivity. Qed.
Lemma range_shape {A} (rows : list (sample A)) s e c a b : s < e -> (1 <= c)%nat -> (b - a <= c)%nat ->
  snd (hdf_range rows (plain s e) 0 c a b) = None /\ (fst (hdf_range rows (plain s e) 0 c a b) = [] \/ exists ch, fst (hdf_range rows (plain s e) 0 c a b) = [ch] /\ bounded (c_tf ch) s e).
Proof.
  intros L C LE. unfold hdf_range. replace (Nat.eqb c 0) with false by (symmetry; apply Nat.eqb_neq; lia). unfold py_range.
  destruct (Nat.eq_dec (b - a) 0) as [Z|Z].
  - assert (X : ceil_div (b - a) c = 0%nat) by (unfold ceil_div; rewrite Z; apply Nat.div_small; lia). rewrite X. cbn. auto.
  - assert (X : ceil_div (b - a) c = 1%nat).
    { unfold ceil_div. assert (H2 : ((b - a + (c - 1)) / c < 2)%nat) by (apply Nat.div_lt_upper_bound; lia). assert (H1 : (1 <= (b - a + (c - 1)) / c)%nat) by (apply Nat.div_le_lower_bound; lia). lia. }
    rewrite X. cbn [seq map hdf_chunks]. unfold timeframe_for_chunk, plain, mk. cbn [Nat.ltb Nat.leb Nat.sub Nat.eqb tf_start tf_end tf_enabled tf_start_ tf_end_ bind]. assert (M : (do t1 <- set_start tf_cleared (Some s); set_end t1 (Some e)) = Ok (plain s e)) by (cbn; replace (e <=? s) with false by lia; reflexivity). rewrite M. unfold gen_cons. cbn [fst snd hdf_chunks]. split; [reflexivity|]. right. eexists. split; [reflexivity|]. cbn. repeat split. exact L.
Qed.
Lemma span_shape {A} (rows : list (sample A)) s e c : s < e -> (length rows <= c)%nat -> (1 <= c)%nat ->
  snd (span rows s e c) = None /\ (fst (span rows s e c) = [] \/ exists ch, fst (span rows s e c) = [ch] /\ bounded (c_tf ch) s e).
Proof.
  intros L C1 C2. unfold span. destruct (coords_from 0 (Some (Some s, Some (e, false))) rows) as [|c0 cs] eqn:E.
  - split; [reflexivity|]. right. eexists. split; [reflexivity|]. cbn. repeat split. exact L.
  - destruct (last_opt (c0 :: cs)) as [cl|] eqn:EL.
    + apply range_shape; [exact L|exact C2|]. apply last_in in EL. rewrite <- E in EL. apply coords_last_lt in EL. lia.
    + exfalso. revert EL. clear. revert c0. induction cs as [|x cs IH]; intros c0; [discriminate|]. cbn [last_opt]. intros H. apply (IH x H).
Qed.
Definition energy_of_span (rows : list (sample (list (option Z)))) (columns : list column) (msp : Z) (c : nat) (ac : list actype) (s e : Z) : option energies :=
  if s <? e then
    match fst (span rows s e c) with
    | [ch] => let chosen := columns_for columns ac in
        Some (match get_total_energy chosen (map (fun r => (fst r, pick columns chosen (snd r))) (c_rows ch)) msp with Ok e => e | Err _ => mkEn None None None end)
    | _ => None
    end
  else None.
Lemma hdf_whole rows columns window msp c ac : (length rows <= c)%nat -> (1 <= c)%nat -> whole (inside window) (hdf_energies rows columns window msp c ac) (energy_of_span rows columns msp c ac).
Proof.
  intros C1 C2 t s e IN B. unfold hdf_energies, energy_of_span. rewrite (load_span rows window t s e c IN B). assert (L := proj2 (proj2 (proj2 B))). replace (s <? e) with true by lia.
  destruct (span_shape rows s e c L C1 C2) as [_ [->|(ch & -> & BC)]]; [reflexivity|]. cbn. eexists. split; [reflexivity|exact BC].
Qed.
Lemma hdf_no_error rows columns window msp c ac section s e : (length rows <= c)%nat -> (1 <= c)%nat -> inside window section -> bounded section s e ->
  snd (hdf_load_section rows window section 0 c) = None /\ forall ch, In ch (fst (hdf_load_section rows window section 0 c)) -> exists v, get_total_energy (columns_for columns ac) (map (fun r => (fst r, pick columns (columns_for columns ac) (snd r))) (c_rows ch)) msp = Ok v.
Proof.
  intros C1 C2 IN B. rewrite (load_span rows window section s e c IN B). split; [apply span_shape; [apply (proj2 (proj2 (proj2 B)))|exact C1|exact C2]|]. intros ch _. destruct (total_energy_ok (columns_for columns ac) (map (fun r => (fst r, pick columns (columns_for columns ac) (snd r))) (c_rows ch)) msp) as (v & E & _). exists v. exact E.
Qed.
