From Coq Require Import Ascii String DecimalString Decimal Permutation Sorted Lia Bool.
From Verif Require Import Base DataportModel DataportSpec DataportProofs DataportProofs2 DataportProofs3 DataportProofs4 SelectModel SelectSpec SelectProofs.
Import List. Open Scope list_scope. Open Scope Z_scope.

Lemma bad_iff fs names b : bad fs (sort_names names) b = true <-> exists n, In n names /\ unusable (fs n) b.
Proof.
  unfold bad. rewrite existsb_exists. split.
  - intros (n & Hn & H). exists n. split; [eapply Permutation_in; [apply Permutation_sym, sort_names_perm|exact Hn]|]. now apply file_bad_iff.
  - intros (n & Hn & H). exists n. split; [eapply Permutation_in; [apply sort_names_perm|exact Hn]|]. now apply file_bad_iff.
Qed.

Section Main.
Variable srt : list line -> list line.
Hypothesis SRT : sorts srt.

(** The rows and numbers of the buildings to convert. *)
Lemma rows_in rest l : In l (srt (filter chosen rest)) <-> In l rest /\ eligible l.
Proof.
  rewrite <- in_chosen. destruct (SRT (filter chosen rest)) as [P _]. split; intros H; [eapply Permutation_in; [apply Permutation_sym, P|exact H]|eapply Permutation_in; [exact P|exact H]].
Qed.
Lemma rows_nodup rest : distinct rest -> NoDup (map l_id (srt (filter chosen rest))).
Proof. intros D. eapply Permutation_NoDup; [apply Permutation_map, SRT|apply distinct_nodup, D]. Qed.
Lemma rows_ids rest : numbers rest -> distinct rest -> exists ids, map l_id (srt (filter chosen rest)) = map Some ids /\ StronglySorted Z.lt ids /\ NoDup ids /\
  (forall b, In b ids <-> exists l, In l rest /\ eligible l /\ l_id l = Some b).
Proof.
  intros N D. destruct (ids_exist (srt (filter chosen rest))) as (ids & E).
  { intros l H. apply rows_in in H. destruct H. now apply N. }
  exists ids. assert (SO : StronglySorted Z.lt ids) by (eapply ids_sorted; [exact E|now apply rows_nodup|apply SRT]).
  split; [exact E|]. split; [exact SO|]. split; [now apply sorted_nodup|].
  intros b. rewrite (in_ids _ _ b E). split; [intros (l & H & K)|intros (l & H & A & K)]; exists l; [apply rows_in in H; tauto|rewrite rows_in; tauto].
Qed.

Definition outcome typ fs names static rest rows ids : Prop :=
  rows = srt (filter chosen rest) /\
  ((exists t metas d, convert typ fs names ids = Ok (t, metas) /\ Forall (fine fs (sort_names names) rows) ids /\
     forall h first, complete h -> convert_dataport srt typ fs names static (mkSheet h (first :: rest)) = Ok (t, create_dir static ++ d) /\ length d = length metas /\
       (forall j b md, nth_error metas j = Some (b, md) -> m_instance md = Some (S j) /\ In b ids) /\
       forall j x, nth_error metas j = Some x -> exists y, nth_error d j = Some y /\ yaml rows (S j) x y) \/
   (exists pre b post e, ids = pre ++ b :: post /\ Forall (fine fs (sort_names names) rows) pre /\
     (forall h first, complete h -> convert_dataport srt typ fs names static (mkSheet h (first :: rest)) = Err e) /\
     (locality rows b = Err e \/ (exists p, locality rows b = Ok p) /\ bad fs (sort_names names) b = true /\ e = KeyError))).

Lemma outcome_ok typ fs names static rest : numbers rest -> distinct rest ->
  exists ids, map l_id (srt (filter chosen rest)) = map Some ids /\ StronglySorted Z.lt ids /\ NoDup ids /\
  (forall b, In b ids <-> exists l, In l rest /\ eligible l /\ l_id l = Some b) /\
  outcome typ fs names static rest (srt (filter chosen rest)) ids.
Proof.
  intros N D. destruct (rows_ids rest N D) as (ids & E & SO & ND & HI). exists ids. split; [exact E|]. split; [exact SO|]. split; [exact ND|]. split; [exact HI|]. split; [reflexivity|].
  set (rows := srt (filter chosen rest)) in *.
  assert (U : forall h first, complete h -> convert_dataport srt typ fs names static (mkSheet h (first :: rest)) =
     do c <- foldM (one_listed typ fs (sort_names names) rows) ids (mkConv [] [] []); do d <- foldM (write_yaml rows) (c_metas c) (create_dir static); Ok (c_tables c, d)).
  { intros h first C. unfold convert_dataport. rewrite (load_ok srt h first rest C). cbn [bind]. fold rows. rewrite (dataids_ok rows ids E). reflexivity. }
  destruct (listed_ok typ fs (sort_names names) rows ids (mkConv [] [] []) [] (cinv_start _ _ _) ND) as [(s & E1 & E2 & C & F)|(pre & b & post & e & E1 & F & E2 & C)].
  - left. cbn [List.app] in C. destruct C as (_ & HK & HM & _).
    assert (I : forall j b md, nth_error (c_metas s) j = Some (b, md) -> m_instance md = Some (S j) /\ In b ids).
    { intros j b md H. split; [apply (HM j b md H)|]. assert (K : In b (map fst (c_metas s))) by (apply nth_error_In, (in_map fst) in H; exact H). rewrite HK in K. apply filter_In in K. tauto. }
    destruct (yamls_ok rows (c_metas s) (create_dir static) 0%nat) as (d & Ed & Len & HN).
    + intros j b md H. now apply I in H.
    + intros b md H. apply In_nth_error in H. destruct H as (j & H). apply I in H. rewrite Forall_forall in F. apply (F b). tauto.
    + intros j _ K. apply in_map_iff in K. destruct K as ((nm & ct) & Ek & K). unfold create_dir in K. apply filter_In in K. cbn [fst] in *. rewrite Ek, name_prefix in K. destruct K; discriminate.
    + exists (c_tables s), (c_metas s), d. split; [unfold convert; now rewrite E2|]. split; [exact F|]. intros h first Ch. split; [rewrite (U h first Ch), E1; cbn [bind]; now rewrite Ed|].
      split; [exact Len|]. split; [exact I|exact HN].
  - right. exists pre, b, post, e. split; [exact E1|]. split; [exact F|]. split; [|exact C]. intros h first Ch. rewrite (U h first Ch), E2. reflexivity.
Qed.

Theorem selected_ok typ fs names static h first rest t d :
  complete h -> numbers rest -> distinct rest -> NoDup (map fst static) ->
  convert_dataport srt typ fs names static (mkSheet h (first :: rest)) = Ok (t, d) ->
  exists ids metas, StronglySorted Z.lt ids /\ (forall b, In b ids <-> exists l, In l rest /\ eligible l /\ l_id l = Some b) /\
    convert typ fs names ids = Ok (t, metas) /\
    NoDup (map fst d) /\
    (forall name c, In (name, c) d <->
       (In (name, c) static /\ String.prefix "building" name = false) \/
       (exists j b md l p, nth_error metas j = Some (b, md) /\ In l rest /\ eligible l /\ l_id l = Some b /\ place l p /\ name = file_name (S j) /\ c = Building b md p)).
Proof.
  intros C N D NS E. destruct (outcome_ok typ fs names static rest N D) as (ids & EI & SO & ND & HI & (_ & [(t' & metas & d' & EC & F & K)|(pre & b & post & e & _ & _ & K & _)])); [|rewrite (K h first C) in E; discriminate].
  destruct (K h first C) as (E' & Len & I & Y). rewrite E' in E. injection E as <- <-. exists ids, metas. split; [exact SO|]. split; [exact HI|]. split; [exact EC|].
  assert (YN : forall j nm c, nth_error d' j = Some (nm, c) -> exists x, nth_error metas j = Some x /\ yaml (srt (filter chosen rest)) (S (0 + j)) x (nm, c)).
  { intros j nm c H. destruct (nth_error metas j) as [x|] eqn:Ex; [|exfalso; apply nth_error_None in Ex; assert (j < length d')%nat by (apply nth_error_Some; congruence); lia].
    destruct (Y j x Ex) as (y & Y1 & Y2). rewrite H in Y1. injection Y1 as <-. eauto. }
  split.
  - rewrite map_app. assert (A : NoDup (map fst (create_dir static))).
    { unfold create_dir. clear - NS. induction static as [|x l IH]; [constructor|]. cbn in NS. apply NoDup_cons_iff in NS. destruct NS as [A B]. cbn. destruct (negb _); [|now apply IH].
      cbn. constructor; [|now apply IH]. intros K. apply A. apply in_map_iff in K. destruct K as (y & E & K). apply filter_In in K. rewrite <- E. apply in_map. tauto. }
    assert (B : NoDup (map fst d')).
    { apply NoDup_nth_error. intros i j Hi E. rewrite map_length in Hi. rewrite !nth_error_map in E.
      destruct (nth_error d' i) as [[n1 c1]|] eqn:E1; [|apply nth_error_None in E1; lia]. destruct (nth_error d' j) as [[n2 c2]|] eqn:E2; [|discriminate]. cbn in E. injection E as ->.
      destruct (YN i n2 c1 E1) as (x1 & _ & p1 & _ & Q1). destruct (YN j n2 c2 E2) as (x2 & _ & p2 & _ & Q2). injection Q1 as Q1 _. injection Q2 as Q2 _. rewrite Q1 in Q2.
      change (file_name (S (0 + i)) = file_name (S (0 + j))) in Q2. apply name_inj in Q2. lia. }
    assert (X : forall y, In y (map fst (create_dir static)) -> ~ In y (map fst d')).
    { intros y H K1. apply in_map_iff in H. destruct H as ((n1 & c1) & <- & H). unfold create_dir in H. apply filter_In in H. cbn [fst] in *. destruct H as [_ H].
      apply in_map_iff in K1. destruct K1 as ((n2 & c2) & E2 & K1). cbn in E2. subst n2. apply In_nth_error in K1. destruct K1 as (j & K1). destruct (YN j n1 c2 K1) as (x & _ & p & _ & Q). injection Q as Q _.
      rewrite Q in H. change (negb (String.prefix "building" (file_name (S (0 + j)))) = true) in H. rewrite name_prefix in H. discriminate. }
    clear - A B X. induction (map fst (create_dir static)) as [|y l IH]; [exact B|]. cbn. apply NoDup_cons_iff in A. destruct A as [A1 A2]. constructor.
    + intros H. apply in_app_or in H. destruct H as [H|H]; [now apply A1|]. apply (X y); [now left|exact H].
    + apply IH; [exact A2|]. intros z Hz. apply X. now right.
  - intros name c. rewrite in_app_iff. unfold create_dir. rewrite filter_In. cbn [fst]. rewrite negb_true_iff. apply or_iff_compat_l. split.
    + intros H. apply In_nth_error in H. destruct H as (j & H). destruct (YN j name c H) as ([b md] & Ex & p & L & Q). cbn [fst snd] in *. injection Q as Q1 Q2.
      destruct (I j b md Ex) as [_ Hb]. apply HI in Hb. destruct Hb as (l & Hl & A & Eb). exists j, b, md, l, p. split; [exact Ex|]. split; [exact Hl|]. split; [exact A|]. split; [exact Eb|].
      split; [|split; [exact Q1|exact Q2]]. apply join_two. rewrite <- (locality_of _ l b (rows_nodup rest D)); [exact L| |exact Eb]. now apply rows_in.
    + intros (j & b & md & l & p & Ex & Hl & A & Eb & P & -> & ->). destruct (Y j _ Ex) as (y & Y1 & p' & L & ->). cbn [fst snd] in *. apply nth_error_In in Y1.
      rewrite (locality_of _ l b (rows_nodup rest D)) in L; [|now apply rows_in|exact Eb]. apply join_two in P. rewrite P in L. injection L as <-. exact Y1.
Qed.

Theorem fails_ok typ fs names static h first rest : complete h -> numbers rest -> distinct rest ->
  let run := convert_dataport srt typ fs names static (mkSheet h (first :: rest)) in
  let spoilt l := In l rest /\ eligible l /\ (no_place l \/ no_grid fs names l) in
  ((exists p, run = Ok p) <-> forall l, ~ spoilt l) /\
  (forall e, run = Err e <-> exists l, spoilt l /\ (forall l', spoilt l' -> ~ lower l' l) /\
     ((no_place l /\ e = TypeError) \/ (~ no_place l /\ e = KeyError))).
Proof.
  intros C N D run spoilt. destruct (outcome_ok typ fs names static rest N D) as (ids & EI & SO & ND & HI & (_ & H)).
  assert (FI : forall l b, In l rest -> eligible l -> l_id l = Some b -> fine fs (sort_names names) (srt (filter chosen rest)) b -> ~ no_place l /\ ~ no_grid fs names l).
  { intros l b Hl A E [(p & L) B]. rewrite (locality_of _ l b (rows_nodup rest D)) in L; [|now apply rows_in|exact E]. split.
    - intros K. assert (X : join [l_city l; l_state l] = Err TypeError) by (apply join_err; auto). congruence.
    - intros (b' & n & E' & Hn & U). rewrite E in E'. injection E' as <-. assert (X : bad fs (sort_names names) b = true) by (apply bad_iff; eauto). congruence. }
  destruct H as [(t & metas & d & EC & F & K)|(pre & b & post & e0 & EB & F & K & C0)].
  - destruct (K h first C) as (E & _). fold run in E. rewrite Forall_forall in F.
    assert (G : forall l, ~ spoilt l). { intros l (Hl & A & Q). destruct (N l Hl A) as (b & Eb). destruct (FI l b Hl A Eb) as [X Y]; [apply F, HI; eauto|]. tauto. }
    split; [split; [auto|intros _; eauto]|]. intros e. split; [intros E1; congruence|]. intros (l & Sp & _). elim (G l Sp).
  - specialize (K h first C). fold run in K.
    assert (HB : In b ids) by (rewrite EB; apply in_or_app; right; now left). apply HI in HB. destruct HB as (l & Hl & A & Eb).
    rewrite (locality_of _ l b (rows_nodup rest D)) in C0; [|now apply rows_in|exact Eb].
    assert (Low : forall l', In l' rest -> eligible l' -> lower l' l -> ~ spoilt l').
    { intros l' Hl' A' (b1 & b2 & E1 & E2 & L) (_ & _ & Q). rewrite Eb in E2. injection E2 as <-. assert (I1 : In b1 ids) by (apply HI; eauto). rewrite EB in I1, SO.
      assert (P : In b1 pre). { apply in_app_or in I1. destruct I1 as [I1|[I1|I1]]; [exact I1|lia|]. exfalso. clear - SO I1 L. induction pre as [|x pre IH]; cbn in SO; apply StronglySorted_inv in SO; destruct SO as [S1 S2]; [|auto]. rewrite Forall_forall in S2. specialize (S2 b1 I1). lia. }
      rewrite Forall_forall in F. destruct (FI l' b1 Hl' A' E1 (F b1 P)). tauto. }
    assert (Sp : spoilt l /\ ((no_place l /\ e0 = TypeError) \/ (~ no_place l /\ e0 = KeyError))).
    { destruct C0 as [J|[(p & J) (B & ->)]].
      - apply join_err in J. destruct J as [J1 J2]. split; [split; [exact Hl|]; split; [exact A|]; now left|]. left. auto.
      - assert (NP : ~ no_place l). { intros X. assert (X' : join [l_city l; l_state l] = Err TypeError) by (apply join_err; auto). congruence. }
        split; [|right; auto]. split; [exact Hl|]. split; [exact A|]. right. apply bad_iff in B. destruct B as (n & Hn & U). exists b, n. auto. }
    destruct Sp as [Sp Q]. split; [split; [intros (p & E); congruence|intros G; elim (G l Sp)]|].
    intros e. split.
    + intros E. assert (e = e0) by congruence. subst e. exists l. split; [exact Sp|]. split; [|exact Q]. intros l' SO' L'. destruct (SO') as (H1 & H2 & _). now apply (Low l' H1 H2 L').
    + intros (l2 & S2 & M2 & Q2). assert (X : l2 = l).
      { destruct S2 as (H1 & H2 & H3). destruct (N l2 H1 H2) as (b2 & Eb2). destruct (Z.lt_trichotomy b2 b) as [L|[L|L]].
        - exfalso. apply (Low l2 H1 H2); [exists b2, b; auto|]. split; auto.
        - subst b2. apply In_nth_error in H1, Hl. destruct H1 as (i & H1), Hl as (j & Hl). assert (i = j) by (apply (D i j l2 l H1 Hl H2 A); congruence). congruence.
        - exfalso. apply (M2 l Sp). exists b, b2. auto. }
      subst l2. rewrite K. f_equal. destruct Q as [[Q1 ->]|[Q1 ->]], Q2 as [[Q3 ->]|[Q3 ->]]; tauto.
Qed.

Theorem columns_ok typ fs names static h lines :
  (~ In "egauge_1s_data_availability"%string h \/ ~ In "grid"%string h -> convert_dataport srt typ fs names static (mkSheet h lines) = Err AttributeError) /\
  (In "egauge_1s_data_availability"%string h -> In "grid"%string h -> ~ complete h -> convert_dataport srt typ fs names static (mkSheet h lines) = Err KeyError) /\
  (complete h -> (exists l, In l (tl lines) /\ eligible l /\ l_id l = None) -> convert_dataport srt typ fs names static (mkSheet h lines) = Err ValueError).
Proof.
  unfold convert_dataport. split; [|split].
  - intros H. unfold load. cbn [s_header s_lines]. destruct (among "egauge_1s_data_availability" h) eqn:E1; [|reflexivity]. destruct (among "grid" h) eqn:E2; [|reflexivity].
    apply among_in in E1. apply among_in in E2. tauto.
  - intros H1 H2 H. unfold load. cbn [s_header s_lines]. apply among_in in H1. apply among_in in H2. rewrite H1, H2. cbn [negb].
    destruct (among "dataid" h) eqn:E3; [|reflexivity]. cbn [negb]. destruct (forallb _ _) eqn:E4; [|reflexivity]. elim H. rewrite forallb_forall in E4.
    intros c [<-|[<-|Hc]]; [now apply among_in|now apply among_in|]. apply among_in, E4. exact Hc.
  - intros C (l & H & A & E). destruct lines as [|first rest]; [destruct H|]. rewrite (load_ok srt h first rest C). cbn [bind]. rewrite dataids_err; [reflexivity|]. exists l. split; [now apply rows_in|exact E].
Qed.

Lemma srt_nil : srt [] = [].
Proof. destruct (SRT []) as [P _]. now apply Permutation_nil in P. Qed.
Theorem empty_ok typ fs names static h : complete h ->
  convert_dataport srt typ fs names static (mkSheet h []) = Ok ([], filter (fun f => negb (String.prefix "building" (fst f))) static).
Proof.
  intros C. unfold convert_dataport, load. cbn [s_lines s_header tl].
  assert (A : forall c, In c ["egauge_1s_data_availability"; "grid"; "dataid"; "building_type"; "city"; "state"; "house_construction_year"]%string -> among c h = true) by (intros c Hc; apply among_in, C, Hc).
  rewrite !A by (cbn; tauto). cbn [negb filter]. rewrite srt_nil. unfold METADATA_COLS. cbn [forallb]. rewrite !A by (cbn; tauto). reflexivity.
Qed.
End Main.

(** The order of the lines does not matter. *)
Lemma sorted_same l : forall l', Permutation l l' -> NoDup (map l_id l) -> StronglySorted id_le l -> StronglySorted id_le l' -> l = l'.
Proof.
  assert (AS : forall a b, id_le a b -> id_le b a -> l_id a = l_id b).
  { intros a b. unfold id_le. destruct (l_id a), (l_id b); try tauto. intros. f_equal. lia. }
  induction l as [|x l IH]; intros l' P N SO SO'; [now apply Permutation_nil in P|]. destruct l' as [|y l']; [apply Permutation_sym, Permutation_nil in P; discriminate|].
  apply StronglySorted_inv in SO, SO'. destruct SO as [S1 S2], SO' as [S1' S2']. rewrite Forall_forall in S2, S2'. cbn in N. apply NoDup_cons_iff in N. destruct N as [N1 N2].
  assert (x = y).
  { assert (Hx : In x (y :: l')) by (eapply Permutation_in; [exact P|now left]). assert (Hy : In y (x :: l)) by (eapply Permutation_in; [apply Permutation_sym, P|now left]).
    destruct Hx as [Hx|Hx]; [now symmetry|]. destruct Hy as [Hy|Hy]; [exact Hy|]. exfalso. apply N1. rewrite (AS x y (S2 y Hy) (S2' x Hx)). now apply in_map. }
  subst y. f_equal. apply IH; auto. eapply Permutation_cons_inv, P.
Qed.
Lemma filter_perm {A} (f : A -> bool) l l' : Permutation l l' -> Permutation (filter f l) (filter f l').
Proof.
  induction 1; cbn; auto.
  - destruct (f x); auto.
  - destruct (f x), (f y); auto. apply perm_swap.
  - eapply Permutation_trans; eauto.
Qed.
Theorem lines_order srt srt' typ fs names static h first first' rest rest' : sorts srt -> sorts srt' -> distinct rest -> Permutation rest rest' ->
  convert_dataport srt typ fs names static (mkSheet h (first :: rest)) = convert_dataport srt' typ fs names static (mkSheet h (first' :: rest')).
Proof.
  intros SO SO' D P. unfold convert_dataport, load. cbn [s_lines s_header tl].
  replace (srt' (filter chosen rest')) with (srt (filter chosen rest)); [reflexivity|].
  apply sorted_same; [|now apply (rows_nodup srt SO)|apply SO|apply SO'].
  eapply Permutation_trans; [apply Permutation_sym, SO|]. eapply Permutation_trans; [apply filter_perm, P|apply SO'].
Qed.
