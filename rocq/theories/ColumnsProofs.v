From Verif Require Import Base EnergyModel PipelineModel ColumnsModel ColumnsSpec.
Open Scope nat_scope.

Lemma check_ac_spec a : (check_ac_type a = Ok tt /\ ac_known a) \/ (check_ac_type a = Err MeasurementError /\ ~ ac_known a).
Proof. destruct a as [[]|n]; [left|left|left|right]; (split; [reflexivity|]); cbn; auto. Qed.
Lemma check_pq_spec p : (check_physical_quantity p = Ok tt /\ pq_known p) \/ (check_physical_quantity p = Err MeasurementError /\ ~ pq_known p).
Proof. destruct p; try (left; split; [reflexivity|exact I]). right. split; [reflexivity|]. cbn. auto. Qed.

Lemma mem_name_spec a l : mem_name a l = true <-> In a l.
Proof.
  unfold mem_name. rewrite existsb_exists. split.
  - intros (x & Hx & E). assert (a = x); [|subst; exact Hx]. destruct a as [[]|n], x as [[]|m]; cbn in E; try discriminate; try reflexivity. apply Nat.eqb_eq in E. congruence.
  - intros H. exists a. split; [exact H|]. destruct a as [[]|n]; cbn; try reflexivity. apply Nat.eqb_refl.
Qed.

Lemma ac_types_spec ms p l : available_ac_types ms p = Ok l -> forall a, In a l <-> In (p, Some a) ms.
Proof.
  unfold available_ac_types. destruct (in_dec pq_dec p PHYSICAL_QUANTITIES); [|discriminate]. intros E a. injection E as <-. rewrite in_flat_map. split.
  - intros ([q b] & Hm & H). cbn [fst snd] in H. destruct (pq_dec q p) as [->|N]; [|destruct H]. destruct b as [b|]; [|destruct H]. destruct H as [->|[]]. exact Hm.
  - intros H. exists (p, Some a). split; [exact H|]. cbn [fst snd]. destruct (pq_dec p p); [|contradiction]. left. reflexivity.
Qed.

Lemma best_spec ms p l : available_ac_types ms p = Ok l ->
  match select_best_ac_type l None with Ok a => preferred ms p a | Err _ => forall a, ~ preferred ms p a end.
Proof.
  intros E. assert (S := ac_types_spec ms p l E). unfold select_best_ac_type. cbn [find AC_TYPES].
  destruct (mem_name (Known Active) l) eqn:E1; [|destruct (mem_name (Known Apparent) l) eqn:E2; [|destruct (mem_name (Known Reactive) l) eqn:E3]].
  - apply mem_name_spec, S in E1. split; [exact E1|exact I].
  - apply mem_name_spec, S in E2. split; [exact E2|]. intros H. apply S, mem_name_spec in H. congruence.
  - apply mem_name_spec, S in E3. split; [exact E3|]. split; intros H; apply S, mem_name_spec in H; congruence.
  - intros [[]|n] [H1 H2]; try (apply S, mem_name_spec in H1; congruence).
Qed.
Lemma preferred_fun ms p a b : preferred ms p a -> preferred ms p b -> a = b.
Proof. intros [A1 A2] [B1 B2]. destruct a as [[]|n], b as [[]|m]; try reflexivity; cbn in *; tauto. Qed.

Section Convert.
  Variables (setlist : list column -> list column) (ms : list measurement) (best : acname).
  Hypothesis HO : set_order setlist.

  Lemma avail_in c : In c (available_columns setlist ms) <-> In c ms.
  Proof. apply HO. Qed.

  Lemma ac_name_ok a : (ac_known a /\ exists l, ac_name_cols setlist ms a = Ok l /\ NoDup l /\ forall c, In c l <-> In c ms /\ snd c = Some a) \/ (~ ac_known a /\ ac_name_cols setlist ms a = Err MeasurementError).
  Proof.
    unfold ac_name_cols. destruct (check_ac_spec a) as [[-> K]|[-> K]]; [left|right; split; [exact K|reflexivity]]. cbn [bind]. split; [exact K|]. eexists. split; [reflexivity|]. split; [apply NoDup_filter; apply HO|].
    intros c. rewrite filter_In, avail_in. destruct (snd c) as [b|]; [destruct (acname_dec b a) as [->|N]|]; split; intros [H1 H2]; split; auto; try discriminate; try congruence.
  Qed.
  Lemma pq_name_ok p : (pq_known p /\ exists l, pq_name_cols setlist ms p = Ok l /\ NoDup l /\ forall c, In c l <-> In c ms /\ fst c = p) \/ (~ pq_known p /\ pq_name_cols setlist ms p = Err MeasurementError).
  Proof.
    unfold pq_name_cols. destruct (check_pq_spec p) as [[-> K]|[-> K]]; [left|right; split; [exact K|reflexivity]]. cbn [bind]. split; [exact K|]. eexists. split; [reflexivity|]. split; [apply NoDup_filter; apply HO|].
    intros c. rewrite filter_In, avail_in. destruct (pq_dec (fst c) p) as [->|N]; split; intros [H1 H2]; split; auto; try discriminate; try congruence.
  Qed.
  Lemma best_name_ok p : (pq_known p /\ exists l, best_name ms p = Ok l /\ NoDup l /\ forall c, In c l <-> In c ms /\ fst c = p /\ exists a, snd c = Some a /\ preferred ms p a) \/ (~ pq_known p /\ best_name ms p = Err MeasurementError).
  Proof.
    unfold best_name. destruct (check_pq_spec p) as [[E K]|[-> K]]; [left|right; split; [exact K|reflexivity]]. rewrite E. cbn [bind]. split; [exact K|].
    destruct (in_dec pq_dec p (available_physical_quantities ms)) as [HI|HI].
    - unfold check_physical_quantity in E. destruct (available_ac_types ms p) as [l|e] eqn:EA; [|unfold available_ac_types in EA; destruct (in_dec pq_dec p PHYSICAL_QUANTITIES); discriminate]. cbn [bind].
      assert (S := best_spec ms p l EA). destruct (select_best_ac_type l None) as [a|e].
      + eexists. split; [reflexivity|]. split; [constructor; [intros []|constructor]|]. intros [q b]. cbn [fst snd]. split.
        * intros [H|[]]. injection H as <- <-. split; [apply S|]. eauto.
        * intros (H1 & -> & b' & -> & H2). rewrite (preferred_fun ms p a b' S H2). left. reflexivity.
      + exists []. split; [reflexivity|]. split; [constructor|]. intros c. split; [intros []|]. intros (_ & _ & a & _ & H). destruct (S a H).
    - exists []. split; [reflexivity|]. split; [constructor|]. intros c. split; [intros []|]. intros (H1 & <- & _). apply HI. apply nodup_In. apply in_map. exact H1.
  Qed.

  (** Lists of names. *)
  Lemma names_ok {A} (f : A -> res (list column)) (known : A -> Prop) (R : A -> column -> Prop) :
    (forall a, (known a /\ exists l, f a = Ok l /\ NoDup l /\ forall c, In c l <-> R a c) \/ (~ known a /\ f a = Err MeasurementError)) ->
    forall l, (Forall known l /\ exists cs, mapM f l = Ok cs /\ forall c, In c (concat cs) <-> exists a, In a l /\ R a c) \/ (~ Forall known l /\ mapM f l = Err MeasurementError).
  Proof.
    intros HF l. induction l as [|a l IH]; [left; split; [constructor|]; exists []; split; [reflexivity|]; intros c; split; [intros []|intros (a & [] & _)]|].
    cbn [mapM]. destruct (HF a) as [(K & la & -> & _ & Ha)|(K & ->)]; cbn [bind]; [|right; split; [intros X; inversion_clear X; contradiction|reflexivity]].
    destruct IH as [(K2 & cs & -> & Hcs)|(K2 & ->)]; cbn [bind]; [left|right; split; [intros X; inversion_clear X; contradiction|reflexivity]].
    split; [constructor; assumption|]. exists (la :: cs). split; [reflexivity|]. intros c. cbn [concat]. rewrite in_app_iff, Ha, Hcs. split.
    - intros [H|(b & H1 & H2)]; [exists a; split; [left; reflexivity|exact H]|exists b; split; [right; exact H1|exact H2]].
    - intros (b & [<-|H1] & H2); [left; exact H2|right; eauto].
  Qed.

  Lemma ac_cols_ok a : a <> AcBest -> ac_given a = true ->
    (valid_ac a /\ exists l, ac_type_to_columns setlist ms best a = Ok l /\ NoDup l /\ forall c, In c l <-> In c ms /\ ac_wanted ms a c) \/ (~ valid_ac a /\ ac_type_to_columns setlist ms best a = Err MeasurementError).
  Proof.
    intros NB G. destruct a as [| |a|l]; try discriminate; try contradiction; cbn [ac_type_to_columns valid_ac ac_wanted].
    - apply ac_name_ok.
    - destruct (names_ok (ac_name_cols setlist ms) ac_known (fun a c => In c ms /\ snd c = Some a) ac_name_ok l) as [(K & cs & -> & H)|(K & ->)]; cbn [bind]; [left|right; split; [exact K|reflexivity]].
      split; [exact K|]. eexists. split; [reflexivity|]. split; [apply HO|]. intros c. rewrite (proj2 (HO (concat cs)) c), H. destruct l as [|a0 l]; [discriminate|]. split.
      + intros (a & H1 & H2 & H3). split; [exact H2|]. eauto.
      + intros (H1 & a & H2 & H3). eauto.
  Qed.
  Lemma pq_cols_ok p : pq_given p = true ->
    (valid_pq p /\ exists l, physical_quantity_to_columns setlist ms p = Ok l /\ NoDup l /\ forall c, In c l <-> In c ms /\ pq_wanted p (fst c)) \/ (~ valid_pq p /\ physical_quantity_to_columns setlist ms p = Err MeasurementError).
  Proof.
    intros G. destruct p as [|p|l]; try discriminate; cbn [physical_quantity_to_columns valid_pq pq_wanted].
    - apply pq_name_ok.
    - destruct (names_ok (pq_name_cols setlist ms) pq_known (fun p c => In c ms /\ fst c = p) pq_name_ok l) as [(K & cs & -> & H)|(K & ->)]; cbn [bind]; [left|right; split; [exact K|reflexivity]].
      split; [exact K|]. eexists. split; [reflexivity|]. split; [apply HO|]. intros c. rewrite (proj2 (HO (concat cs)) c), H. destruct l as [|a0 l]; [discriminate|]. split.
      + intros (a & H1 & H2 & <-). auto.
      + intros (H1 & H2). eauto.
  Qed.
  Lemma best_cols_ok p :
    (valid_pq p /\ (p = PqNone -> Forall (fun m => pq_known (fst m)) ms) /\ exists l, columns_with_best_ac_type setlist ms p = Ok l /\ NoDup l /\ forall c, In c l <-> p <> PqList [] /\ wanted ms p AcBest c) \/
    (~ (valid_pq p /\ (p = PqNone -> Forall (fun m => pq_known (fst m)) ms)) /\ columns_with_best_ac_type setlist ms p = Err MeasurementError).
  Proof.
    unfold wanted. destruct p as [|p|l]; cbn [columns_with_best_ac_type valid_pq pq_wanted ac_wanted].
    - destruct (names_ok (best_name ms) pq_known (fun p c => In c ms /\ fst c = p /\ exists a, snd c = Some a /\ preferred ms p a) best_name_ok (available_physical_quantities ms)) as [(K & cs & -> & H)|(K & ->)]; cbn [bind].
      + left. split; [exact I|]. split; [intros _; apply Forall_forall; intros m Hm; rewrite Forall_forall in K; apply K; apply nodup_In; apply in_map; exact Hm|]. eexists. split; [reflexivity|]. split; [apply HO|].
        intros c. rewrite (proj2 (HO (concat cs)) c), H. split.
        * intros (p & H1 & H2 & <- & H3). split; [discriminate|]. auto.
        * intros (_ & H1 & _ & H2). exists (fst c). split; [apply nodup_In; apply in_map; exact H1|]. auto.
      + right. split; [|reflexivity]. intros [_ X]. apply K. apply Forall_forall. intros p Hp. apply nodup_In in Hp. apply in_map_iff in Hp. destruct Hp as (m & <- & Hm). specialize (X eq_refl). rewrite Forall_forall in X. auto.
    - destruct (best_name_ok p) as [(K & l & E & ND & H)|(K & E)]; [left|right; split; [intros [X _]; contradiction|exact E]]. split; [exact K|]. split; [discriminate|]. exists l. split; [exact E|]. split; [exact ND|]. intros c. rewrite H. split.
      + intros (H1 & <- & H2). split; [discriminate|]. auto.
      + intros (_ & H1 & <- & H2). auto.
    - destruct (names_ok (best_name ms) pq_known (fun p c => In c ms /\ fst c = p /\ exists a, snd c = Some a /\ preferred ms p a) best_name_ok l) as [(K & cs & -> & H)|(K & ->)]; cbn [bind]; [left|right; split; [intros [X _]; contradiction|reflexivity]].
      split; [exact K|]. split; [discriminate|]. eexists. split; [reflexivity|]. split; [apply HO|]. intros c. rewrite (proj2 (HO (concat cs)) c), H. destruct l as [|p0 l].
      + split; [intros (p & [] & _)|intros (X & _); contradiction].
      + split.
        * intros (p & H1 & H2 & <- & H3). split; [discriminate|]. auto.
        * intros (_ & H1 & H2 & H3). exists (fst c). auto.
  Qed.

  Lemma nil_in {A} (l : list A) : is_nil l = true <-> forall x, ~ In x l.
  Proof. destruct l as [|x l]; cbn; [split; auto|]. split; [discriminate|]. intros H. destruct (H x). left. reflexivity. Qed.


  Lemma all_wanted p a : ac_given a || pq_given p = false -> forall c, wanted ms p a c <-> In c ms.
  Proof.
    intros G c. apply orb_false_iff in G. destruct G as [G1 G2]. unfold wanted. destruct a as [| |a|[|x l]]; try discriminate; destruct p as [|p|[|y l']]; try discriminate; cbn; tauto.
  Qed.

  Lemma convert_thm p a columns : columns = None \/ columns = Some [] ->
    (forall out, convert setlist ms best p a columns = Ok out -> NoDup out /\ forall c, In c out <-> wanted ms p a c) /\
    (understood ms p a -> (exists c, wanted ms p a c) -> exists out, convert setlist ms best p a columns = Ok out) /\
    (forall e, convert setlist ms best p a columns = Err e -> e = MeasurementError).
  Proof.
    intros HC. assert (EC : convert setlist ms best p a columns = convert setlist ms best p a None) by (destruct HC as [->| ->]; reflexivity). rewrite EC. clear HC EC columns.
    unfold convert. destruct (ac_given a || pq_given p) eqn:G; cbn [negb].
    2:{ split; [|split; [eauto|discriminate]]. intros out E. injection E as <-. split; [apply HO|]. intros c. rewrite avail_in, (all_wanted p a G). reflexivity. }
    destruct (match a with AcBest => true | _ => false end) eqn:HB.
    - destruct a; try discriminate. clear HB. destruct (best_cols_ok p) as [(V1 & V2 & l & -> & ND & H)|(V & ->)]; cbn [bind].
      + destruct (is_nil l) eqn:N.
        * split; [discriminate|]. split; [|intros e E; injection E as <-; reflexivity]. intros U (c & W). rewrite nil_in in N. exfalso. apply (N c). apply H. split; [|exact W]. intros ->. destruct U as (_ & _ & _ & U). apply U. auto.
        * split; [|split; [eauto|discriminate]]. intros out E. injection E as <-. split; [exact ND|]. intros c. rewrite H. split; [tauto|]. intros W. split; [|exact W]. intros ->. destruct l as [|x l]; [discriminate|]. destruct (proj1 (H x)) as [X _]; [left; reflexivity|]. apply X. reflexivity.
      + split; [discriminate|]. split; [|intros e E; injection E as <-; reflexivity]. intros (U1 & U2 & U3 & U4) _. exfalso. apply V. split; [exact U1|]. apply U3. reflexivity.
    - assert (NB : a <> AcBest) by (intros ->; discriminate).
      assert (EB : forall X Y : res (list column), (match a with AcBest => X | _ => Y end) = Y) by (intros X Y; destruct a; try reflexivity; contradiction). rewrite EB. clear EB.
      destruct (ac_given a) eqn:GA.
      + destruct (ac_cols_ok a NB GA) as [(VA & l & -> & ND & H)|(VA & ->)]; cbn [bind andb].
        2:{ split; [discriminate|]. split; [|intros e E; injection E as <-; reflexivity]. intros (_ & U & _) _. contradiction. }
        destruct (pq_given p) eqn:GP.
        * destruct (pq_cols_ok p GP) as [(VP & lp & -> & NDp & Hp)|(VP & ->)]; cbn [bind].
          2:{ split; [discriminate|]. split; [|intros e E; injection E as <-; reflexivity]. intros (U & _) _. contradiction. }
          destruct (is_nil l) eqn:N; cbn [orb andb negb].
          -- split; [discriminate|]. split; [|intros e E; injection E as <-; reflexivity]. intros _ (c & W1 & W2 & W3). rewrite nil_in in N. exfalso. apply (N c). apply H. auto.
          -- set (both := setlist _). assert (HBO : forall c, In c both <-> wanted ms p a c).
             { intros c. unfold both. rewrite (proj2 (HO _) c), filter_In, H. destruct (in_dec column_dec c lp) as [I|I]; rewrite Hp in I; unfold wanted; split; intros X; try tauto. destruct X; discriminate. }
             destruct (is_nil lp) eqn:N2; cbn [orb].
             { split; [discriminate|]. split; [|intros e E; injection E as <-; reflexivity]. intros _ (c & W1 & W2 & W3). rewrite nil_in in N2. exfalso. apply (N2 c). apply Hp. auto. }
             destruct (is_nil both) eqn:N3.
             { split; [discriminate|]. split; [|intros e E; injection E as <-; reflexivity]. intros _ (c & W). rewrite nil_in in N3. exfalso. apply (N3 c). apply HBO. exact W. }
             split; [|split; [eauto|discriminate]]. intros out E. injection E as <-. split; [apply HO|exact HBO].
        * assert (PW : forall c, wanted ms p a c <-> In c ms /\ ac_wanted ms a c) by (intros c; unfold wanted; destruct p as [|q|[|y l']]; try discriminate; cbn; tauto).
          destruct (is_nil l) eqn:N.
          -- split; [discriminate|]. split; [|intros e E; injection E as <-; reflexivity]. intros _ (c & W). rewrite nil_in in N. exfalso. apply (N c). apply H. apply PW. exact W.
          -- split; [|split; [eauto|discriminate]]. intros out E. injection E as <-. split; [exact ND|]. intros c. rewrite H, PW. reflexivity.
      + cbn [orb] in G. rewrite G. cbn [bind andb orb is_nil negb].
        assert (AW : forall c, wanted ms p a c <-> In c ms /\ pq_wanted p (fst c)) by (intros c; unfold wanted; destruct a as [| |x|[|y l']]; try discriminate; cbn; tauto).
        destruct (pq_cols_ok p G) as [(VP & lp & -> & NDp & Hp)|(VP & ->)]; cbn [bind].
        2:{ split; [discriminate|]. split; [|intros e E; injection E as <-; reflexivity]. intros (U & _) _. contradiction. }
        rewrite orb_false_r. destruct (is_nil lp) eqn:N.
        * split; [discriminate|]. split; [|intros e E; injection E as <-; reflexivity]. intros _ (c & W). rewrite nil_in in N. exfalso. apply (N c). apply Hp. apply AW. exact W.
        * split; [|split; [eauto|discriminate]]. intros out E. injection E as <-. split; [exact NDp|]. intros c. rewrite Hp, AW. reflexivity.
  Qed.

  Lemma nothing_thm p a columns : columns = None \/ columns = Some [] -> ac_given a || pq_given p = true -> (forall c, ~ wanted ms p a c) -> convert setlist ms best p a columns = Err MeasurementError.
  Proof.
    intros HC G HN. destruct (convert_thm p a columns HC) as (T1 & T2 & T3). destruct (convert setlist ms best p a columns) as [out|e] eqn:E; [|f_equal; apply T3; reflexivity].
    exfalso. destruct (T1 out eq_refl) as [_ H]. assert (N : out = []) by (destruct out as [|c out]; [reflexivity|]; destruct (HN c); apply H; left; reflexivity). subst out. clear T1 T2 T3 H.
    assert (EC : convert setlist ms best p a columns = convert setlist ms best p a None) by (destruct HC as [->| ->]; reflexivity). rewrite EC in E. clear -E G.
    unfold convert in E. rewrite G in E. cbn [negb] in E. destruct a as [| |a|l].
    - destruct (pq_given p); cbn [ac_given bind andb] in E; [|discriminate]. destruct (physical_quantity_to_columns setlist ms p) as [cp|]; [|discriminate]. cbn in E. destruct cp; cbn in E; discriminate.
    - destruct (columns_with_best_ac_type setlist ms p) as [cs|]; [|discriminate]. cbn in E. destruct cs; discriminate.
    - cbn [ac_given] in E. destruct (ac_type_to_columns setlist ms best (AcName a)) as [cs|]; [|discriminate]. cbn [bind] in E. destruct (pq_given p).
      + destruct (physical_quantity_to_columns setlist ms p) as [cp|]; [|discriminate]. cbn [bind] in E. destruct cs as [|c cs]; cbn [is_nil andb orb negb] in E; [discriminate|]. destruct (setlist _) as [|d ds]; cbn [is_nil] in E; [rewrite orb_true_r in E; discriminate|]. destruct (is_nil cp || false); discriminate.
      + destruct cs; discriminate.
    - destruct l as [|x l].
      + cbn [ac_given orb] in G, E. rewrite G in E. cbn [bind andb] in E. destruct (physical_quantity_to_columns setlist ms p) as [cp|]; [|discriminate]. cbn in E. destruct cp; cbn in E; discriminate.
      + cbn [ac_given] in E. destruct (ac_type_to_columns setlist ms best (AcList (x :: l))) as [cs|]; [|discriminate]. cbn [bind] in E. destruct (pq_given p).
        * destruct (physical_quantity_to_columns setlist ms p) as [cp|]; [|discriminate]. cbn [bind] in E. destruct cs as [|c cs]; cbn [is_nil andb orb negb] in E; [discriminate|]. destruct (setlist _) as [|d ds]; cbn [is_nil] in E; [rewrite orb_true_r in E; discriminate|]. destruct (is_nil cp || false); discriminate.
        * destruct cs; discriminate.
  Qed.

  Lemma columns_thm p a c cs :
    (ac_given a || pq_given p = true -> convert setlist ms best p a (Some (c :: cs)) = Err ValueError) /\
    (ac_given a || pq_given p = false -> incl (c :: cs) ms -> convert setlist ms best p a (Some (c :: cs)) = Ok (c :: cs)) /\
    (ac_given a || pq_given p = false -> ~ incl (c :: cs) ms -> convert setlist ms best p a (Some (c :: cs)) = Err MeasurementError).
  Proof.
    unfold convert. split; [intros ->; reflexivity|].
    assert (F : forallb (fun x => if in_dec column_dec x (available_columns setlist ms) then true else false) (c :: cs) = true <-> incl (c :: cs) ms).
    { rewrite forallb_forall. split; intros H x Hx.
      - specialize (H x Hx). destruct (in_dec column_dec x (available_columns setlist ms)) as [I|I]; [apply avail_in; exact I|discriminate].
      - destruct (in_dec column_dec x (available_columns setlist ms)) as [I|I]; [reflexivity|]. exfalso. apply I. apply avail_in. apply H. exact Hx. }
    split; intros -> H.
    - apply F in H. rewrite H. reflexivity.
    - destruct (forallb _ (c :: cs)) eqn:E; [exfalso; apply H; apply F; reflexivity|reflexivity].
  Qed.
End Convert.
