(** Proofs about the energy over named sections. *)
From Coq Require Import QArith Qabs Permutation Sorted.
From Verif Require Import Base TimeFrameModel TimeFrameSpec TimeFrameProofs StoreModel StoreSpec StoreProofs StoreProofs2 ResultsModel ResultsSpec ResultsProofs
  GoodSectionsModel GoodSectionsSpec EnergyModel EnergySpec EnergyProofs LoadFrames EnergyProofs2
  WholeModel WholeSpec WholeProofs GapsModel GapsSpec GapsProofs GapsProofs2 TopModel GStatsModel ShareModel ShareSpec ShareProofs ShareProofs2 AssignModel AssignSpec.
Import List. Open Scope Z_scope.

Lemma one_instant {A} (rows m : list (sample A)) (P : sample A -> Prop) z : increasing rows -> is_filter P rows m -> (forall r, P r -> fst r = z) -> (length m < 2)%nat.
Proof.
  intros Hi Hf Hz. pose proof (is_filter_sorted _ _ _ Hf (proj1 (increasing_sorted rows) Hi)) as HS.
  destruct m as [|x [|y m]]; cbn; try lia. exfalso. apply StronglySorted_inv in HS. destruct HS as [_ HS]. apply Forall_inv in HS. unfold slt in HS.
  assert (Hx : P x) by (apply (is_filter_in _ _ _ x Hf); left; reflexivity).
  assert (Hy : P y) by (apply (is_filter_in _ _ _ y Hf); right; left; reflexivity).
  rewrite (Hz x Hx), (Hz y Hy) in HS. lia.
Qed.

Lemma oeqb_spec a b : oeqb a b = true <-> a = b.
Proof. unfold oeqb. destruct a as [x|], b as [y|]; split; intros H; try discriminate; try reflexivity; [apply Z.eqb_eq in H; congruence|injection H as ->; apply Z.eqb_refl]. Qed.

Lemma requested_isect window t s e s' e' i : bounded t s e -> tf_empty window = false -> isect_start window t = Some s' -> isect_end window t = Some e' ->
  (requested window t i <-> inTFc (mkTF (Some s') (Some e') true false (isect_incl window t)) i).
Proof.
  intros (B1 & B2 & B3 & B4) Ew Es Ee. unfold requested, inTFc. cbn [tf_empty tf_incl]. change (tf_start (mkTF (Some s') (Some e') true false (isect_incl window t))) with (Some s').
  change (tf_end (mkTF (Some s') (Some e') true false (isect_incl window t))) with (Some e').
  unfold isect_incl. rewrite Ee, B1, B2, B3, Ew. unfold isect_start in Es. unfold isect_end in Ee. rewrite B1 in Es. rewrite B2 in Ee.
  pose proof (oeqb_spec (Some e') (Some e)) as O1. pose proof (oeqb_spec (Some e') (tf_end window)) as O2.
  destruct (tf_start window) as [a|] eqn:W1, (tf_end window) as [b|] eqn:W2; injection Es as Es; injection Ee as Ee.
  all: destruct (oeqb (Some e') (Some e)) eqn:K1; [pose proof (proj1 O1 eq_refl) as Q1; injection Q1 as Q1|assert (Q1 : e' <> e) by (intros ->; discriminate (proj2 O1 eq_refl))].
  all: try (exfalso; lia).
  all: try (destruct (oeqb (Some e') (Some b)) eqn:K2; [pose proof (proj1 O2 eq_refl) as Q2; injection Q2 as Q2|assert (Q2 : e' <> b) by (intros ->; discriminate (proj2 O2 eq_refl))]).
  all: clear O1 O2; try (exfalso; lia).
  all: split.
  all: intros H.
  all: repeat match goal with H : _ /\ _ |- _ => destruct H end.
  all: repeat match goal with H : forall x, Some ?a = Some x -> _ |- _ => specialize (H a eq_refl) end.
  all: repeat match goal with |- _ /\ _ => split | |- forall x, Some _ = Some x -> _ => intros ? [= <-] | |- forall x, None = Some x -> _ => discriminate end.
  all: try reflexivity; try lia.
  all: try (destruct (Z.lt_trichotomy i e') as [T|[T|T]]; [left; lia|right; split; [|lia]|lia]).
  all: repeat match goal with H : _ \/ _ |- _ => destruct H | H : _ /\ _ |- _ => destruct H | H : Some _ = Some _ |- _ => injection H as H end; try lia; try assumption.
  all: try (left; lia).
  all: try (right; split; [lia|]; first [right; assumption | left; f_equal; lia]).
  all: destruct (Z.eq_dec i b); [right; split; [assumption|left; f_equal; lia]|left; lia].
Qed.

Lemma section_load {A} (rows : list (sample A)) window t s e m n c : increasing rows -> (1 <= c)%nat -> bounded t s e ->
  is_filter (fun r => requested window t (fst r)) rows m ->
  exists cs, hdf_load_section rows window t n c = (cs, None) /\ (forall r, ascending e r -> ascending s (map c_tf cs ++ r)) /\
    ((2 <= length m)%nat -> delivers cs m c) /\ ((length m < 2)%nat -> Forall (fun ch => c_rows ch = []) cs).
Proof.
  intros Hinc Hc (B1 & B2 & B3 & B4) Hf.
  assert (Hself : forall r, ascending e r -> ascending s (map c_tf [mkChunk (@nil (sample A)) None t] ++ r)).
  { intros r Hr. cbn. exists s, e. split; [repeat split; assumption|]. split; [lia|exact Hr]. }
  destruct (intersection_cases window t) as [(Em & E)|[(Em & (s' & e' & Es & Ee & Hle) & E)|(Em & Hlt & E)]].
  - exists [mkChunk [] None t]. unfold hdf_load_section. rewrite E. split; [reflexivity|]. split; [exact Hself|].
    assert (m = []) as -> by (eapply is_filter_none; [|exact Hf]; intros x (K & _); rewrite K, B3 in Em; discriminate).
    split; [cbn; lia|]. intros _. repeat constructor.
  - exists [mkChunk [] None t]. unfold hdf_load_section. rewrite E. split; [reflexivity|]. split; [exact Hself|].
    assert (L : (length m < 2)%nat).
    { apply (one_instant rows m _ s' Hinc Hf). intros r (_ & (_ & K1 & K2) & K3 & K4). unfold isect_start in Es. unfold isect_end in Ee. rewrite B1 in Es. rewrite B2 in Ee.
      specialize (K1 s B1). specialize (K2 e B2). destruct (tf_start window) as [ws|] eqn:Ew1; [specialize (K3 ws eq_refl)|]; (destruct (tf_end window) as [we|] eqn:Ew2; [specialize (K4 we eq_refl)|]);
      injection Es as Es; injection Ee as Ee; lia. }
    split; [lia|]. intros _. repeat constructor.
  - assert (exists s' e', isect_start window t = Some s' /\ isect_end window t = Some e' /\ s <= s' /\ e' <= e) as (s' & e' & Es & Ee & H1 & H2).
    { unfold isect_start, isect_end. rewrite B1, B2. destruct (tf_start window), (tf_end window); do 2 eexists; (split; [reflexivity|]); (split; [reflexivity|]); lia. }
    specialize (Hlt s' e' Es Ee). rewrite Es, Ee in E. set (w := mkTF (Some s') (Some e') true false (isect_incl window t)) in *.
    assert (Hp : rows_of_period w rows m).
    { unfold rows_of_period. eapply is_filter_ext; [|exact Hf]. cbv beta. intros x. apply orb_false_iff in Em. apply (requested_isect window t s e s' e'); try tauto. repeat split; assumption. }
    assert (Hw1 : tf_empty w = false) by reflexivity. assert (Hw2 : tf_start w <> None \/ tf_end w <> None) by (left; discriminate).
    pose proof (section_bounded rows window t w m n c Hinc Hc E Hw1 Hw2 Hp) as (S0 & S1 & S2).
    destruct m as [|x [|y m]].
    + exists [mkChunk [] None w]. split; [exact (S0 eq_refl)|]. split; [|split; [cbn; lia|intros _; repeat constructor]].
      intros r Hr. cbn. exists s', e'. split; [repeat split; exact Hlt|]. split; [exact H1|]. exact (ascending_weaken r e e' H2 Hr).
    + exists []. split; [exact (S1 eq_refl)|]. split; [|split; [cbn; lia|intros _; constructor]]. intros r Hr. apply (ascending_weaken r e s); [lia|exact Hr].
    + assert (L : (2 <= length (x :: y :: m))%nat) by (cbn; lia). destruct (S2 L) as (cs & Ec & Hd & s2 & e2 & Hch & Hce).
      exists cs. split; [exact Ec|]. split; [|split; [intros _; exact Hd|lia]].
      destruct Hce as [[Q|[Q _]] [Q'|[Q' _]]]; try discriminate. injection Q as <-. injection Q' as <-.
      intros r Hr. apply (ascending_weaken _ s'); [exact H1|]. apply (chain_ascending _ _ _ _ Hch). exact (ascending_weaken r e e' H2 Hr).
Qed.

Definition portion {A} (c : nat) (m : list (sample A)) (cs : list (chunk A)) : Prop :=
  ((2 <= length m)%nat -> delivers cs m c) /\ ((length m < 2)%nat -> Forall (fun ch => c_rows ch = []) cs).

Lemma sections_load {A} (rows : list (sample A)) window n c : increasing rows -> (1 <= c)%nat ->
  forall sections lo ms, follow_from lo sections -> section_rows window rows sections ms ->
  exists css, hdf_load rows window sections n c = (concat css, None) /\ Forall2 (portion c) ms css /\
    exists l, (forall x, lo = Some x -> l = x) /\ ascending l (map c_tf (concat css)).
Proof.
  intros Hinc Hc. induction sections as [|t sections IH]; intros lo ms HF HR.
  - inversion HR; subst. exists []. split; [reflexivity|]. split; [constructor|]. destruct lo as [x|]; [exists x|exists 0]; (split; [congruence|exact I]).
  - inversion HR as [|? m ? ms' Hm Hms]; subst. destruct HF as (s & e & HB & Hlo & HF).
    destruct (IH (Some e) ms' HF Hms) as (css & E & HP & l & Hl & Ha). rewrite (Hl e eq_refl) in Ha.
    destruct (section_load rows window t s e m n c Hinc Hc HB Hm) as (cs & Ec & Hasc & H1 & H2).
    exists (cs :: css). cbn [hdf_load concat]. rewrite Ec, E. unfold gen_app. cbn [fst snd]. split; [reflexivity|].
    split; [constructor; [split; assumption|exact HP]|]. rewrite map_app. specialize (Hasc _ Ha).
    destruct lo as [x|]; [exists x; split; [congruence|]; exact (ascending_weaken _ s x (Hlo x eq_refl) Hasc)|exists s; split; [discriminate|exact Hasc]].
Qed.

Lemma follow_nonempty sections : forall lo, follow_from lo sections -> nonempty sections = sections.
Proof.
  induction sections as [|t l IH]; intros lo H; [reflexivity|]. destruct H as (s & e & (_ & _ & B & _) & _ & H). unfold nonempty in *. cbn [filter]. rewrite B. cbn [negb]. f_equal. exact (IH _ H).
Qed.

Lemma portions_sum columns msp a k c ps css : uses_column columns a Power k -> Forall2 (portion c) ps css ->
  Forall (Forall (has_reading k)) ps ->
  sumZ (map (fun ch => part columns msp a (c_rows ch)) (concat css)) = sumZ (map (jl k msp) ps).
Proof.
  intros HU. induction 1 as [|p cs ps css [S1 S2] S IH]; intros HR; [reflexivity|]. apply Forall_cons_iff in HR. destruct HR as [R1 R2].
  cbn [concat map sumZ]. rewrite map_app, sumZ_app, (IH R2). f_equal.
  destruct (Nat.lt_ge_cases (length p) 2) as [L|L].
  - specialize (S2 L). unfold jl. rewrite joules_few by exact L. clear -S2. induction S2 as [|ch cs H S2 IH]; [reflexivity|]. cbn [map sumZ]. rewrite H, part_nil, IH. reflexivity.
  - apply (section_sum columns msp a k c cs p HU (S1 L)); [intros ->; cbn in L; lia|exact R1].
Qed.

Lemma portions_some {A} c (ps : list (list (sample A))) css : Forall2 (portion c) ps css ->
  (two_readings ps <-> exists ch, In ch (concat css) /\ c_rows ch <> []).
Proof.
  induction 1 as [|p cs ps css [S1 S2] S IH]; [split; [intros (m & [] & _)|intros (ch & [] & _)]|]. split.
  - intros (m & [<-|Hin] & L).
    + pose proof (S1 L) as Hd. pose proof (delivers_ne c p cs L Hd) as Hne. destruct Hd as (_ & _ & Hl). destruct cs as [|ch cs]; [contradiction|]. apply Forall_inv in Hl.
      exists ch. split; [left; reflexivity|]. intros E. rewrite E in Hl. cbn in Hl. lia.
    + destruct (proj1 IH (ex_intro _ m (conj Hin L))) as (ch & H1 & H2). exists ch. split; [|exact H2]. cbn [concat]. apply in_or_app. right. exact H1.
  - intros (ch & Hin & Hne). cbn [concat] in Hin. apply in_app_or in Hin. destruct Hin as [Hin|Hin].
    + destruct (Nat.lt_ge_cases (length p) 2) as [L|L]; [|exists p; split; [left; reflexivity|exact L]]. specialize (S2 L). rewrite Forall_forall in S2. destruct (Hne (S2 ch Hin)).
    + destruct (proj2 IH (ex_intro _ ch (conj Hin Hne))) as (m & H1 & H2). exists m. split; [right; exact H1|exact H2].
Qed.

Definition has_two {A} (ms : list (list (sample A))) : bool := existsb (fun m => Nat.leb 2 (length m)) ms.
Lemma has_two_spec {A} (ms : list (list (sample A))) : has_two ms = true <-> two_readings ms.
Proof.
  unfold has_two. rewrite existsb_exists. split; intros (m & H1 & H2); exists m; (split; [exact H1|]); [apply Nat.leb_le; exact H2|apply Nat.leb_le in H2; exact H2].
Qed.

Definition sums (msp : Z) (ms : list (list (sample Z))) : Z := sumZ (map (fun m => joules m msp) ms).

Lemma over_value a msp s window sections ms c : increasing s -> in_sequence sections -> section_rows window s sections ms -> (1 <= c)%nat ->
  energies_over (power_meter a msp s) window sections c = Ok (if has_two ms then [(a, Some (inject_Z (sums msp ms)))] else []).
Proof.
  intros Hinc HF HR Hc. unfold energies_over, power_meter. cbn [st_columns st_msp st_rows]. rewrite (follow_nonempty sections None HF). fold cell. change (fun x => (fst x, [Some (snd x)])) with cell.
  assert (HR' : section_rows window (map cell s) sections (map (map cell) ms)).
  { clear -HR. unfold section_rows in *. induction HR as [|t m l ms H HR IH]; cbn [map]; constructor; [|exact IH]. clear -H.
    induction H as [|x l m Hx F IH|x l m Hx F IH]; cbn [map]; constructor; auto. }
  assert (Hinc' : increasing (map cell s)) by (apply (increasing_fst s); [apply cell_fst|exact Hinc]).
  destruct (sections_load (map cell s) window 0 c Hinc' Hc sections None (map (map cell) ms) HF HR') as (css & El & HP & l & _ & Ha). rewrite El.
  set (columns := [(Power, Some a)]).
  assert (HU : Forall (fun ch => usable (c_tf ch)) (concat css)) by (apply ascending_usable in Ha; rewrite Forall_forall in *; intros ch Hch; apply Ha, in_map; exact Hch).
  destruct (process_rows columns msp (concat css) HU (ascending_no_overlap _ _ Ha)) as (d & Ed & Hp). rewrite Ed. cbn [bind]. f_equal.
  pose proof (portions_some c _ _ HP) as Hsome.
  assert (Htwo : has_two ms = has_two (map (map cell) ms)) by (unfold has_two; clear; induction ms as [|m ms IH]; [reflexivity|]; cbn [map existsb]; rewrite map_length, IH; reflexivity).
  assert (Hcell : forall ch b, energy_of_type (match c_rows ch with [] => [] | _ => columns end) (c_rows ch) msp b = Ok (en_get b (chunk_value columns msp ch))).
  { intros ch b. unfold chunk_value. destruct (total_energy_ok columns (c_rows ch) msp) as (v & E & Hv). rewrite E. exact (Hv b). }
  assert (HC : forall b, has_col (en_get b) d = true -> b = a /\ exists ch, In ch (concat css) /\ c_rows ch <> []).
  { intros b H. rewrite (has_col_perm b _ _ Hp) in H. unfold has_col in H. rewrite map_map in H. apply existsb_exists in H. destruct H as (r & Hin & H).
    apply in_map_iff in Hin. destruct Hin as (ch & <- & Hin). cbn [row_of r_val fst snd] in H. specialize (Hcell ch b).
    destruct (c_rows ch) as [|x xs] eqn:Ex.
    - unfold energy_of_type in Hcell. rewrite select_none in Hcell by (intros q []). injection Hcell as E. rewrite <- E in H. discriminate.
    - split; [|exists ch; split; [exact Hin|rewrite Ex; discriminate]]. destruct (ac_eqb b a) eqn:Eb; [destruct a, b; (reflexivity || discriminate)|exfalso].
      unfold energy_of_type in Hcell. rewrite select_none in Hcell by (intros q [Hq|[]]; injection Hq as _ <-; destruct a; discriminate).
      injection Hcell as E. rewrite <- E in H. discriminate. }
  rewrite Htwo. destruct (has_two (map (map cell) ms)) eqn:E2.
  - apply has_two_spec in E2. destruct (proj1 Hsome E2) as (ch & Hin & Hne).
    assert (C1 : has_col (en_get a) d = true).
    { rewrite (has_col_perm a _ _ Hp). unfold has_col. rewrite map_map. apply existsb_exists. exists (row_of (c_tf ch, chunk_value columns msp ch)).
      split; [apply in_map_iff; exists ch; split; [reflexivity|exact Hin]|]. cbn [row_of r_val snd]. specialize (Hcell ch a).
      destruct (c_rows ch) as [|x xs] eqn:Ex; [contradiction|]. rewrite (energy_of_type_uses _ _ msp _ _ _ (one_uses a)) in Hcell by discriminate. injection Hcell as <-. reflexivity. }
    assert (C2 : osum (map (fun r => en_get a (r_val r)) d) = sums msp ms).
    { rewrite osum_sum, map_map.
      rewrite (sumZ_perm _ (map (fun r => z_of (en_get a (r_val r))) (map row_of (map (fun ch => (c_tf ch, chunk_value columns msp ch)) (concat css))))) by (apply Permutation_map; exact Hp).
      rewrite !map_map. cbn [row_of r_val snd]. rewrite (map_ext _ (fun ch => part columns msp a (c_rows ch))) by (intros; apply part_chunk).
      rewrite (portions_sum columns msp a 0 c _ css (one_uses a) HP).
      - rewrite map_map. unfold sums. f_equal. apply map_ext. intros m. apply cell_jl.
      - apply Forall_map. rewrite Forall_forall. intros m _. apply cell_reading. }
    assert (C3 : forall b, b <> a -> has_col (en_get b) d = false) by (intros b Hb; apply not_true_iff_false; intros H; destruct (HC b H); contradiction).
    cbn [flat_map]. destruct a; rewrite C1, C2, !C3 by discriminate; reflexivity.
  - assert (C3 : forall b, has_col (en_get b) d = false).
    { intros b. apply not_true_iff_false. intros H. destruct (HC b H) as (_ & Hex). apply (proj2 Hsome), has_two_spec in Hex. congruence. }
    cbn [flat_map]. rewrite !C3. reflexivity.
Qed.
