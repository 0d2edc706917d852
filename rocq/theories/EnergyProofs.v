(** Proofs about energy. *)
From Verif Require Import Base TimeFrameModel TimeFrameSpec TimeFrameProofs SortLib ResultsModel ResultsSpec ResultsProofs
  StoreModel StoreSpec StoreProofs StoreProofs2 GoodSectionsProofs3 EnergyModel EnergySpec.
From Coq Require Import Sorted Permutation.
Open Scope Z_scope.

(** ** The integral *)

Lemma zrange_app lo a b : zrange lo (a + b) = zrange lo a ++ zrange (lo + Z.of_nat a) b.
Proof.
  revert lo. induction a as [|a IH]; intros lo; cbn [Nat.add zrange app].
  - f_equal. lia.
  - rewrite IH. do 2 f_equal. f_equal. lia.
Qed.

Lemma zrange_in lo n i : In i (zrange lo n) <-> lo <= i < lo + Z.of_nat n.
Proof.
  revert lo. induction n as [|n IH]; intros lo; cbn [zrange In]; [lia|]. rewrite IH. lia.
Qed.

Lemma sumZ_app a b : sumZ (a ++ b) = sumZ a + sumZ b.
Proof. induction a as [|x a IH]; cbn; lia. Qed.

Lemma sum_over_split f lo mid hi : lo <= mid -> mid <= hi -> sum_over f lo hi = sum_over f lo mid + sum_over f mid hi.
Proof.
  intros H1 H2. unfold sum_over. replace (Z.to_nat (hi - lo)) with (Z.to_nat (mid - lo) + Z.to_nat (hi - mid))%nat by lia.
  rewrite zrange_app, map_app, sumZ_app. do 3 f_equal. f_equal. lia.
Qed.

Lemma sum_over_ext f g lo hi : (forall i, lo <= i < hi -> f i = g i) -> sum_over f lo hi = sum_over g lo hi.
Proof.
  intros H. unfold sum_over. f_equal. apply map_ext_in. intros i Hi. apply zrange_in in Hi. apply H. lia.
Qed.

Lemma sum_over_const v lo hi : lo <= hi -> sum_over (fun _ => v) lo hi = (hi - lo) * v.
Proof.
  intros H. unfold sum_over. rewrite <- (Z2Nat.id (hi - lo)) at 2 by lia. generalize (Z.to_nat (hi - lo)) as n. intros n. clear H. revert lo.
  induction n as [|n IH]; intros lo; cbn [zrange map sumZ]; [lia|]. rewrite IH. lia.
Qed.

Lemma sum_over_nil f lo hi : hi <= lo -> sum_over f lo hi = 0.
Proof. intros H. unfold sum_over. replace (Z.to_nat (hi - lo)) with 0%nat by lia. reflexivity. Qed.

Lemma joules_integral msp : 0 <= msp -> forall s t v, increasing ((t, v) :: s) ->
  forall hi, last_time ((t, v) :: s) hi -> joules ((t, v) :: s) msp = sum_over (power_at msp ((t, v) :: s)) t hi /\ t <= hi.
Proof.
  intros Hm. induction s as [|[t' v'] s IH]; intros t v Hinc hi Hl.
  - destruct Hl as (x & r & E & <-). destruct r as [|a [|b r]]; cbn in E; try discriminate. injection E as <-. cbn [fst].
    split; [|lia]. rewrite sum_over_nil by lia. reflexivity.
  - cbn [increasing fst] in Hinc. destruct Hinc as [Htt Hinc].
    assert (Hl' : last_time ((t', v') :: s) hi).
    { destruct Hl as (x & r & E & <-). destruct r as [|a r]; [discriminate|]. injection E as <- E. exists x, r. split; [exact E|reflexivity]. }
    destruct (IH t' v' Hinc hi Hl') as [I1 I2]. split; [|lia].
    assert (Ij : joules ((t, v) :: (t', v') :: s) msp = Z.min (t' - t) msp * v + joules ((t', v') :: s) msp) by reflexivity.
    rewrite Ij, I1. clear Ij. rewrite (sum_over_split _ t t' hi) by lia. f_equal.
    + rewrite (sum_over_split _ t (Z.min t' (t + msp)) t') by lia.
      rewrite (sum_over_ext _ (fun _ => v) t (Z.min t' (t + msp))).
      2:{ intros i Hi. cbn [power_at]. replace ((t <=? i) && (i <? t')) with true by lia. replace (i <? t + msp) with true by lia. reflexivity. }
      rewrite sum_over_const by lia.
      rewrite (sum_over_ext _ (fun _ => 0) (Z.min t' (t + msp)) t').
      2:{ intros i Hi. cbn [power_at]. replace ((t <=? i) && (i <? t')) with true by lia. replace (i <? t + msp) with false by lia. reflexivity. }
      rewrite sum_over_const by lia. replace (Z.min t' (t + msp) - t) with (Z.min (t' - t) msp) by lia. lia.
    + apply sum_over_ext. intros i Hi. 
      assert (Ep : power_at msp ((t, v) :: (t', v') :: s) i = if (t <=? i) && (i <? t') then (if i <? t + msp then v else 0) else power_at msp ((t', v') :: s) i) by reflexivity.
      rewrite Ep. replace ((t <=? i) && (i <? t')) with false by lia. reflexivity.
Qed.

Lemma joules_is_energy msp s : 0 <= msp -> increasing s -> is_energy msp s (joules s msp).
Proof.
  intros Hm Hinc. destruct s as [|[t v] s]; [left; split; reflexivity|right].
  destruct (last_opt_some (t, v) s) as [z Hz]. exists t, (fst z).
  assert (HL : last_time ((t, v) :: s) (fst z)).
  { clear -Hz. revert t v Hz. induction s as [|[t' v'] s IH]; intros t v Hz.
    - cbn in Hz. injection Hz as <-. exists (t, v), []. split; reflexivity.
    - destruct (IH t' v' Hz) as (x & r & E & E2). exists x, ((t, v) :: r). rewrite E. split; [reflexivity|exact E2]. }
  split; [exists (t, v), s; split; reflexivity|]. split; [exact HL|]. exact (proj1 (joules_integral msp Hm s t v Hinc _ HL)).
Qed.

Lemma is_energy_unique msp s e e' : is_energy msp s e -> is_energy msp s e' -> e = e'.
Proof.
  intros [[-> ->]|(lo & hi & (x & r & E & F) & (y & q & E2 & F2) & ->)] [[E3 ->]|(lo' & hi' & (x' & r' & E' & F') & (y' & q' & E2' & F2') & ->)]; try congruence.
  assert (x' = x) by congruence. rewrite E2 in E2'. apply app_inj_tail in E2'. destruct E2' as [_ <-]. congruence.
Qed.

Lemma joules_nonneg msp s : 0 <= msp -> increasing s -> Forall (fun x => 0 <= snd x) s -> 0 <= joules s msp.
Proof.
  intros Hm. induction s as [|[t v] [|[t' v'] s] IH]; intros Hi HF; try (cbn; lia).
  cbn [increasing fst] in Hi. destruct Hi as [H1 H2]. apply Forall_cons_iff in HF. destruct HF as [F1 F2]. specialize (IH H2 F2).
  cbn [snd] in F1. cbn [joules] in *. nia.
Qed.

Lemma joules_monotone msp s : 0 <= msp -> forall s', increasing s ->
  Forall2 (fun x y => fst x = fst y /\ snd x <= snd y) s s' -> joules s msp <= joules s' msp.
Proof.
  intros Hm. induction s as [|[t v] [|[t' v'] s] IH]; intros s' Hi HF.
  - inversion HF; subst. cbn. lia.
  - inversion HF as [|a [b c] l l' H1 H2]; subst. inversion H2; subst. cbn. lia.
  - inversion HF as [|a [b c] l l' H1 H2]; subst. inversion H2 as [|a' [b' c'] k k' H3 H4]; subst.
    specialize (IH ((b', c') :: k')). cbn [increasing fst snd] in *. destruct Hi as [Hi1 Hi2].
    specialize (IH Hi2 H2). destruct H1 as [<- H1], H3 as [<- H3].
    assert (E1 : joules ((t, v) :: (t', v') :: s) msp = Z.min (t' - t) msp * v + joules ((t', v') :: s) msp) by reflexivity.
    assert (E2 : joules ((t, c) :: (t', c') :: k') msp = Z.min (t' - t) msp * c + joules ((t', c') :: k') msp) by reflexivity.
    rewrite E1, E2. nia.
Qed.

Lemma joules_monotone_msp msp msp' s : msp <= msp' -> increasing s -> Forall (fun x => 0 <= snd x) s -> joules s msp <= joules s msp'.
Proof.
  intros Hm. induction s as [|[t v] [|[t' v'] s] IH]; intros Hi HF; try (cbn; lia).
  cbn [increasing fst] in Hi. destruct Hi as [H1 H2]. apply Forall_cons_iff in HF. destruct HF as [F1 F2]. specialize (IH H2 F2).
  cbn [snd] in F1. cbn [joules] in *. nia.
Qed.

Lemma joules_app msp l1 x l2 : joules (l1 ++ x :: l2) msp = joules (l1 ++ [x]) msp + joules (x :: l2) msp.
Proof.
  induction l1 as [|[t v] l1 IH]; cbn [app].
  - destruct x. cbn [joules]. lia.
  - destruct l1 as [|[t' v'] l1].
    + cbn [app] in *. destruct x as [a b]. 
      assert (E1 : joules ((t, v) :: (a, b) :: l2) msp = Z.min (a - t) msp * v + joules ((a, b) :: l2) msp) by reflexivity.
      rewrite E1. cbn [joules]. lia.
    + cbn [app] in *.
      assert (E1 : forall q, joules ((t, v) :: (t', v') :: q) msp = Z.min (t' - t) msp * v + joules ((t', v') :: q) msp) by reflexivity.
      rewrite !E1. lia.
Qed.

Lemma dropna_app a b : dropna (a ++ b) = dropna a ++ dropna b.
Proof. induction a as [|[t [v|]] a IH]; cbn; [reflexivity| |exact IH]. rewrite IH. reflexivity. Qed.

(** ** Columns *)

Lemma col_eqb_spec a b : col_eqb a b = true <-> a = b.
Proof.
  destruct a as [p [x|]], b as [q [y|]]; unfold col_eqb; cbn [fst snd]; rewrite ?andb_true_r, ?andb_false_r, ?andb_true_iff.
  - assert (P : pq_eqb p q = true <-> p = q).
    { destruct p, q; cbn; try (split; [discriminate|congruence]); try tauto. rewrite Nat.eqb_eq. split; congruence. }
    assert (Q : ac_eqb x y = true <-> x = y) by (destruct x, y; cbn; split; congruence || discriminate).
    rewrite P, Q. split; [intros [-> ->]; reflexivity|intros E; injection E; auto].
  - split; [discriminate|congruence].
  - split; [discriminate|congruence].
  - assert (P : pq_eqb p q = true <-> p = q).
    { destruct p, q; cbn; try (split; [discriminate|congruence]); try tauto. rewrite Nat.eqb_eq. split; congruence. }
    rewrite P. split; [intros ->; reflexivity|congruence].
Qed.

Lemma existsb_col q columns : existsb (col_eqb q) columns = true <-> In q columns.
Proof.
  rewrite existsb_exists. split.
  - intros (c & Hc & E). apply col_eqb_spec in E. subst. exact Hc.
  - intros H. exists q. split; [exact H|]. apply col_eqb_spec. reflexivity.
Qed.

Lemma existsb_col_not q columns : ~ In q columns -> existsb (col_eqb q) columns = false.
Proof. intros H. destruct (existsb (col_eqb q) columns) eqn:E; [|reflexivity]. apply existsb_col in E. contradiction. Qed.

Lemma column_index_nth columns c k : nth_error columns k = Some c -> NoDup columns -> column_index columns c = Some k.
Proof.
  revert k. induction columns as [|d r IH]; intros k Hk HN; [destruct k; discriminate|]. apply NoDup_cons_iff in HN. destruct HN as [N1 N2].
  cbn [column_index]. destruct k as [|k].
  - cbn in Hk. injection Hk as ->. replace (col_eqb c c) with true by (symmetry; apply col_eqb_spec; reflexivity). reflexivity.
  - cbn in Hk. destruct (col_eqb c d) eqn:E.
    + apply col_eqb_spec in E. subst d. exfalso. apply N1. apply nth_error_In in Hk. exact Hk.
    + rewrite (IH k Hk N2). reflexivity.
Qed.

Lemma uses_selects columns a q k : uses_column columns a q k ->
  select_quantity columns a = Some q /\ column_index columns (q, Some a) = Some k.
Proof.
  intros (H1 & H2 & H3). split; [|apply column_index_nth; assumption].
  apply nth_error_In in H1. unfold select_quantity, pq_prefs. cbn [find].
  destruct H3 as [->|[[-> N]|[-> [N1 N2]]]].
  - replace (existsb (col_eqb (CumulativeEnergy, Some a)) columns) with true by (symmetry; apply existsb_col; exact H1). reflexivity.
  - rewrite (existsb_col_not _ _ N). replace (existsb (col_eqb (Energy, Some a)) columns) with true by (symmetry; apply existsb_col; exact H1). reflexivity.
  - rewrite (existsb_col_not _ _ N1), (existsb_col_not _ _ N2). replace (existsb (col_eqb (Power, Some a)) columns) with true by (symmetry; apply existsb_col; exact H1). reflexivity.
Qed.

(** What the code selects is the documented preference. *)
Lemma select_spec columns a :
  match select_quantity columns a with
  | Some CumulativeEnergy => In (CumulativeEnergy, Some a) columns
  | Some Energy => In (Energy, Some a) columns /\ ~ In (CumulativeEnergy, Some a) columns
  | Some Power => In (Power, Some a) columns /\ ~ In (CumulativeEnergy, Some a) columns /\ ~ In (Energy, Some a) columns
  | Some (OtherQuantity _) => False
  | None => forall q, In (q, Some a) columns -> exists n, q = OtherQuantity n
  end.
Proof.
  unfold select_quantity, pq_prefs. cbn [find].
  destruct (existsb (col_eqb (CumulativeEnergy, Some a)) columns) eqn:E1; [apply existsb_col; exact E1|].
  assert (N1 : ~ In (CumulativeEnergy, Some a) columns) by (intros H; apply existsb_col in H; congruence).
  destruct (existsb (col_eqb (Energy, Some a)) columns) eqn:E2; [split; [apply existsb_col; exact E2|exact N1]|].
  assert (N2 : ~ In (Energy, Some a) columns) by (intros H; apply existsb_col in H; congruence).
  destruct (existsb (col_eqb (Power, Some a)) columns) eqn:E3; [split; [apply existsb_col; exact E3|split; assumption]|].
  assert (N3 : ~ In (Power, Some a) columns) by (intros H; apply existsb_col in H; congruence).
  intros [| | |n] H; try contradiction. exists n. reflexivity.
Qed.

(** ** Energy of a chunk *)

(** The reading of column [k] in a row. *)
Definition rd (k : nat) (r : sample (list (option Z))) : sample (option Z) := (fst r, nth k (snd r) None).

Lemma energy_of_type_uses columns df msp a q k : uses_column columns a q k -> df <> [] ->
  energy_of_type columns df msp a =
  Ok (match q with
      | Power => Some (joules (dropna (map (rd k) df)) msp)
      | Energy => Some (osum (map snd (map (rd k) df)))
      | CumulativeEnergy =>
          match hd_error (map (rd k) df), last_opt (map (rd k) df) with
          | Some x, Some y => match snd y, snd x with Some b, Some a => Some (b - a) | _, _ => None end
          | _, _ => None
          end
      | OtherQuantity _ => None
      end).
Proof.
  intros HU Hne. destruct (uses_selects _ _ _ _ HU) as [H1 H2]. unfold energy_of_type, series. rewrite H1, H2. unfold energy_for_power_series.
  destruct q; try reflexivity. fold (rd k). change (fun r : Z * list (option Z) => (fst r, nth k (snd r) None)) with (rd k).
  destruct df as [|r df]; [contradiction|]. cbn [map hd_error]. destruct (last_opt_some (rd k r) (map (rd k) df)) as [z ->]. reflexivity.
Qed.

Lemma energy_of_type_ok columns df msp a : df <> [] \/ columns = [] -> exists v, energy_of_type columns df msp a = Ok v.
Proof.
  intros H. unfold energy_of_type. destruct (select_quantity columns a) as [q|] eqn:E; [|eexists; reflexivity].
  destruct q; try (eexists; reflexivity). unfold series.
  destruct (column_index columns (CumulativeEnergy, Some a)) as [k|] eqn:EK.
  - destruct H as [H| ->]; [|discriminate]. destruct df as [|r df]; [contradiction|]. cbn [map].
    match goal with |- context [last_opt (?x :: ?l)] => destruct (last_opt_some x l) as [z ->] end. eexists. reflexivity.
  - exfalso. pose proof (select_spec columns a) as S. rewrite E in S. clear -S EK. 
    induction columns as [|d r IH]; [destruct S|]. cbn [column_index] in EK. destruct (col_eqb (CumulativeEnergy, Some a) d) eqn:C; [discriminate|].
    destruct S as [->|S]; [|apply IH; [destruct (column_index r (CumulativeEnergy, Some a)); [discriminate|reflexivity]|exact S]].
    assert (col_eqb (CumulativeEnergy, Some a) (CumulativeEnergy, Some a) = true) by (apply col_eqb_spec; reflexivity). congruence.
Qed.

Lemma total_energy_ok columns df msp : exists e, get_total_energy columns df msp = Ok e /\
  forall a, energy_of_type (match df with [] => [] | _ => columns end) df msp a = Ok (en_get a e).
Proof.
  unfold get_total_energy. set (cl := match df with [] => [] | _ => columns end).
  assert (H : df <> [] \/ cl = []) by (subst cl; destruct df; [right; reflexivity|left; discriminate]).
  destruct (energy_of_type_ok cl df msp Active H) as [va Ea]. destruct (energy_of_type_ok cl df msp Apparent H) as [vp Ep].
  destruct (energy_of_type_ok cl df msp Reactive H) as [vr Er]. rewrite Ea, Ep, Er. eexists. split; [reflexivity|].
  intros []; assumption.
Qed.

(** The value stored for a chunk, and its share in the sum (NaN counts 0). *)
Definition chunk_value (columns : list column) (msp : Z) (ch : chunk (list (option Z))) : energies :=
  match get_total_energy columns (c_rows ch) msp with Ok e => e | Err _ => mkEn None None None end.
Definition z_of (o : option Z) : Z := match o with Some v => v | None => 0 end.

Lemma osum_sum l : osum l = sumZ (map z_of l).
Proof. induction l as [|[v|] l IH]; cbn; lia. Qed.

Lemma energy_process_append columns msp cs : forall data,
  foldM (fun d ch => do e <- get_total_energy columns (c_rows ch) msp; results_append d (c_tf ch) e) cs data =
  append_all (map (fun ch => (c_tf ch, chunk_value columns msp ch)) cs) data.
Proof.
  unfold append_all. induction cs as [|ch cs IH]; intros data; [reflexivity|]. cbn [foldM map fst snd]. unfold chunk_value at 1.
  destruct (total_energy_ok columns (c_rows ch) msp) as (e & E & _). rewrite E. cbn [bind].
  destruct (results_append data (c_tf ch) e); cbn [bind]; [apply IH|reflexivity].
Qed.

Lemma total_of_chunks columns msp a cs : Forall (fun ch => usable (c_tf ch)) cs -> no_overlap (map c_tf cs) ->
  total_energy_of columns msp a (cs, None) = Ok (sumZ (map (fun ch => z_of (en_get a (chunk_value columns msp ch))) cs)).
Proof.
  intros HU HN. unfold total_energy_of, energy_process. cbn [fst snd]. rewrite energy_process_append.
  set (l := map (fun ch => (c_tf ch, chunk_value columns msp ch)) cs).
  assert (HU' : Forall (fun p => usable (fst p)) l) by (subst l; apply Forall_map; exact HU).
  destruct (append_all_outcome l [] HU') as (d & E & Hp & _).
  - constructor.
  - constructor.
  - rewrite app_nil_r. apply no_overlap_rows; [exact HU'|]. subst l. rewrite map_map. cbn [fst]. exact HN.
  - rewrite E. cbn [bind]. f_equal. rewrite osum_sum, map_map. rewrite app_nil_r in Hp.
    rewrite (sumZ_perm _ (map (fun r => z_of (en_get a (r_val r))) (map row_of l))) by (apply Permutation_map; exact Hp).
    subst l. rewrite !map_map. reflexivity.
Qed.

(** ** Adding up over chunks that share a row *)

Lemma share_sum {A} (P : sample A -> Prop) (E : list (sample A) -> Z) (over : sample A -> Z)
  (HE : forall l1 x l2, P x -> E (l1 ++ [x]) + E (x :: l2) = E (l1 ++ x :: l2) + over x) :
  forall cs, cs <> [] -> share_one_row cs -> Forall (fun ch => c_rows ch <> []) cs ->
  Forall (fun ch => forall x r, c_rows ch = x :: r -> P x) (tl cs) ->
  sumZ (map (fun ch => E (c_rows ch)) cs) =
  E (unshared cs) + sumZ (map (fun ch => match c_rows ch with x :: _ => over x | [] => 0 end) (tl cs)).
Proof.
  induction cs as [|a [|b cs] IH]; intros Hne Hsh HN HP; [contradiction| |].
  - cbn. rewrite app_nil_r. lia.
  - cbn [share_one_row] in Hsh. destruct Hsh as [(x & pre & post & Ea & Eb) Hsh].
    apply Forall_cons_iff in HN. destruct HN as [_ HN]. cbn [tl] in HP. apply Forall_cons_iff in HP. destruct HP as [HPb HP].
    specialize (IH ltac:(discriminate) Hsh HN HP). cbn [map sumZ tl] in *. rewrite IH. clear IH.
    unfold unshared. cbn [map concat]. rewrite Ea, Eb. cbn [tl app].
    pose proof (HE pre x (post ++ concat (map (fun c' => tl (c_rows c')) cs)) (HPb x post Eb)) as H.
    rewrite <- app_assoc. cbn [app] in *. lia.
Qed.
