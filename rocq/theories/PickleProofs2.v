(** Proofs about exporting and importing trained models: the disaggregators. *)
From Coq Require Import String Lia Arith.
From Verif Require Import Base PickleModel PickleSpec PickleProofs.
Import List. Open Scope list_scope. Open Scope nat_scope.

Lemma other_file : forall (d : disk) f b g, g <> f -> get (put d f b) g = get d g.
Proof. intros. rewrite get_put. destruct (String.eqb_spec f g); [congruence|reflexivity]. Qed.
Lemma own_file : forall (d : disk) f b, get (put d f b) f = Some b.
Proof. intros. now rewrite get_put, String.eqb_refl. Qed.

Lemma write_any : forall (d : disk) f b l, exists d' e, write d f b l = (d', e) /\ (forall g, g <> f -> get d' g = get d g)
  /\ (e = None <-> l = Fine) /\ (l = Refused -> d' = d).
Proof.
  intros d f b [| |n]; eexists _, _; (split; [reflexivity|]); (split; [intros g G; try reflexivity; now apply other_file|]);
    (split; [split; (reflexivity || discriminate)|]); (reflexivity || discriminate).
Qed.

Section Disaggregators.
  Context {Payload Window : Type}.
  Variable unbounded : Window.
  Variable can_open : string -> bool.
  Notation object := (object Payload Window).
  Notation heap := (heap Payload Window).

  Section CO.
    Context {States Combos : Type}.
    Variable dumps : co_file Payload Window States Combos -> bytes.
    Variable loads : bytes -> option (co_file Payload Window States Combos).
    Notation export := (export_co dumps).
    Notation import := (import_co unbounded can_open loads).

    Lemma co_export : forall (o : co States Combos) (h : heap) objs f l d, refers h (co_model o) objs -> Forall on_hdf objs -> NoDup (map snd (co_model o)) ->
      export o h f l d = let '(d', e) := write d f (dumps (mkCoFile (combine (map fst (co_model o)) (map named objs)) (co_combos o) (co_min o))) l in (h, d', e).
    Proof.
      intros o h objs f l d R F N. pose proof (refers_in _ _ _ R F) as FI.
      destruct (swap_fine _ _ N FI) as (h' & E & RN). unfold export_co. rewrite E.
      rewrite (objects_named _ _ _ _ R RN), (restored _ _ _ N FI RN). reflexivity.
    Qed.
    Lemma co_restored : forall (o : co States Combos) (h : heap) objs f l d, refers h (co_model o) objs -> Forall on_hdf objs -> NoDup (map snd (co_model o)) ->
      exists d' e, export o h f l d = (h, d', e) /\ (forall g, g <> f -> get d' g = get d g) /\ (e = None <-> l = Fine) /\ (l = Refused -> d' = d).
    Proof.
      intros o h objs f l d R F N. rewrite (co_export _ _ _ _ _ _ R F N).
      set (b := dumps _). destruct (write_any d f b l) as (d' & e & E & H). rewrite E. now exists d', e.
    Qed.

    Lemma co_kept : forall (o o2 : co States Combos) (h h2 : heap) objs f d d2,
      pickles dumps loads -> refers h (co_model o) objs -> Forall (reopens can_open) objs -> NoDup (map snd (co_model o)) ->
      get d2 f = get (snd (fst (export o h f Fine d))) f ->
      exists o2' news, import o2 h2 f d2 = (o2', h2 ++ news, None)
        /\ map fst (co_model o2') = map fst (co_model o) /\ co_combos o2' = co_combos o /\ co_min o2' = co_min o
        /\ refers (h2 ++ news) (co_model o2') news /\ Forall2 (same_file unbounded) objs news.
    Proof.
      intros o o2 h h2 objs f d d2 [P _] R F N G. pose proof (reopens_hdf _ _ F) as FH.
      pose proof (refers_length _ _ _ R) as L.
      rewrite (co_export _ _ _ _ _ _ R FH N) in G. cbn [write fst snd] in G. rewrite own_file in G.
      unfold import_co, read. rewrite G, P. cbn [cf_model cf_combos cf_min].
      rewrite fst_combined, snd_combined by (rewrite !map_length; auto).
      rewrite combine_length, !map_length, L, Nat.min_id.
      replace (length objs) with (length (map named objs)) by apply map_length.
      rewrite (reopen_all unbounded can_open _ h2 (reopens_named _ _ F)).
      eexists _, (map (opened unbounded) (map named objs)). split; [reflexivity|]. cbn [co_model co_combos co_min].
      split; [apply fst_combined; rewrite seq_length, !map_length; auto|]. split; [reflexivity|]. split; [reflexivity|].
      split; [|apply named_opened; auto].
      replace (length (map named objs)) with (length (map (opened unbounded) (map named objs))) by apply map_length.
      apply refers_new. rewrite !map_length; auto.
    Qed.

    Lemma co_window : forall (o o2 : co States Combos) (h h2 : heap) objs i x g w f d d2,
      pickles dumps loads -> refers h (co_model o) objs -> Forall (reopens can_open) objs -> NoDup (map snd (co_model o)) ->
      nth_error objs i = Some x -> o_store x = Store (Hdf g w) -> w <> unbounded ->
      get d2 f = get (snd (fst (export o h f Fine d))) f ->
      exists o2' h2' m n, import o2 h2 f d2 = (o2', h2', None) /\ nth_error (co_model o2') i = Some m /\ nth_error h2' (snd m) = Some n /\ o_store n <> o_store x.
    Proof.
      intros o o2 h h2 objs i x g w f d d2 P R F N X S W G.
      destruct (co_kept o o2 h h2 objs f d d2 P R F N G) as (o2' & news & E & _ & _ & _ & R2 & S2).
      exists o2', (h2 ++ news).
      assert (K : exists m n, nth_error (co_model o2') i = Some m /\ nth_error (h2 ++ news) (snd m) = Some n /\ same_file unbounded x n).
      { clear - X R2 S2. unfold refers in R2. revert R2. generalize (h2 ++ news) as hh. intros hh R2.
        revert X R2. generalize (co_model o2') as l. revert i.
        induction S2 as [|y n objs news Y S2 IH]; intros [|i] l X R2; cbn in X; try discriminate; inversion R2 as [|m ? l' ? M R3]; subst.
        - injection X as ->. now exists m, n.
        - exact (IH i l' X R3). }
      destruct K as (m & n & M & NN & _ & g' & w' & S' & S''). exists m, n. split; [exact E|]. split; [exact M|]. split; [exact NN|].
      rewrite S''. rewrite S in S' |- *. intros [= _ B]. congruence.
    Qed.

    Lemma co_not_opened : forall (o o2 : co States Combos) (h h2 : heap) pre x g w post f d d2,
      pickles dumps loads -> refers h (co_model o) (pre ++ x :: post) -> Forall (reopens can_open) pre -> o_store x = Store (Hdf g w) -> can_open g = false ->
      Forall on_hdf post -> NoDup (map snd (co_model o)) ->
      get d2 f = get (snd (fst (export o h f Fine d))) f ->
      exists o2' news1 news2, import o2 h2 f d2 = (o2', h2 ++ news1 ++ news2, Some GenericException)
        /\ map fst (co_model o2') = map fst (co_model o) /\ co_combos o2' = co_combos o2 /\ co_min o2' = co_min o2
        /\ refers (h2 ++ news1 ++ news2) (co_model o2') (news1 ++ news2) /\ Forall2 (same_file unbounded) pre news1 /\ Forall2 only_name (x :: post) news2.
    Proof.
      intros o o2 h h2 pre x g w post f d d2 [P _] R F X C FP N G. pose proof (reopens_hdf _ _ F) as FH.
      assert (FX : Forall on_hdf (x :: post)) by (constructor; [now exists g, w|auto]).
      assert (FA : Forall on_hdf (pre ++ x :: post)) by (apply Forall_app; auto).
      pose proof (refers_length _ _ _ R) as L.
      rewrite (co_export _ _ _ _ _ _ R FA N) in G. cbn [write fst snd] in G. rewrite own_file in G.
      unfold import_co, read. rewrite G, P. cbn [cf_model cf_combos cf_min].
      rewrite fst_combined, snd_combined by (rewrite !map_length; auto).
      rewrite combine_length, !map_length, L, Nat.min_id.
      replace (length (pre ++ x :: post)) with (length (map named pre ++ named x :: map named post)) by (rewrite !app_length; cbn; rewrite !map_length; reflexivity).
      rewrite map_app. cbn [map].
      assert (NX : o_store (named x) = Path g) by (unfold named; now rewrite X).
      rewrite (reopen_not unbounded can_open _ _ _ g h2 (reopens_named _ _ F) NX C).
      eexists _, (map (opened unbounded) (map named pre)), (map named (x :: post)). split; [reflexivity|]. cbn [co_model co_combos co_min].
      split; [apply fst_combined; rewrite seq_length, app_length; cbn; rewrite !map_length, L, app_length; reflexivity|]. split; [reflexivity|]. split; [reflexivity|].
      split; [|split; [apply named_opened; auto|apply named_names; auto]].
      replace (length (map named pre ++ named x :: map named post)) with (length (map (opened unbounded) (map named pre) ++ map named (x :: post)))
        by (rewrite !app_length; cbn; rewrite !map_length; reflexivity).
      apply refers_new. rewrite !app_length. cbn. rewrite !map_length, L, app_length. reflexivity.
    Qed.

    Lemma co_stopped : forall (o o2 : co States Combos) (h h2 : heap) objs f n d b,
      pickles dumps loads -> refers h (co_model o) objs -> Forall on_hdf objs -> NoDup (map snd (co_model o)) ->
      get (snd (fst (export o h f Fine d))) f = Some b -> n < length b ->
      import o2 h2 f (snd (fst (export o h f (Stopped n) d))) = (o2, h2, Some GenericException).
    Proof.
      intros o o2 h h2 objs f n d b [_ P] R F N G L. rewrite (co_export _ _ _ _ _ _ R F N) in G. rewrite (co_export _ _ _ _ _ _ R F N). cbn [write fst snd] in *.
      rewrite own_file in G. injection G as <-. unfold import_co, read. rewrite own_file, P by auto. reflexivity.
    Qed.

    Lemma co_failed : forall (o : co States Combos) (h : heap) pre m post objs f l d,
      co_model o = pre ++ m :: post -> refers h pre objs -> Forall on_hdf objs -> NoDup (map snd pre) ->
      (forall x, nth_error h (snd m) = Some x -> ~ on_hdf x) ->
      exists h' news, export o h f l d = (h', d, Some AttributeError)
        /\ refers h' pre news /\ Forall2 only_name objs news /\ (forall q, ~ In q (map snd pre) -> nth_error h' q = nth_error h q)
        /\ (pre <> [] -> forall f' l' d', export o h' f' l' d' = (h', d', Some AttributeError)).
    Proof.
      intros o h pre m post objs f l d E R F N NO. pose proof (refers_in _ _ _ R F) as FI.
      destruct (swap_fails (map snd pre) (snd m) (map snd post) h N FI NO) as (os & h' & S & RN).
      assert (E' : map snd (co_model o) = map snd pre ++ snd m :: map snd post) by (rewrite E, map_app; reflexivity).
      exists h', (map named objs). unfold export_co. rewrite E', S. split; [reflexivity|].
      split; [apply (refers_renamed h h' (map snd pre)); auto; apply incl_refl|]. split; [apply named_names; auto|].
      split; [intros q Q; rewrite RN; destruct (in_dec Nat.eq_dec q (map snd pre)); [contradiction|reflexivity]|].
      intros NE f' l' d'. destruct pre as [|p pre]; [congruence|]. inversion R as [|? x ? xs RX RS]; subst.
      apply Forall_cons_iff in F. destruct F as [(g & w & G) _].
      cbn [map List.app swap]. unfold store_at. rewrite RN, RX.
      destruct (in_dec Nat.eq_dec (snd p) (map snd (p :: pre))) as [_|B]; [|destruct B; now left].
      cbn [option_map]. unfold named. rewrite G. reflexivity.
    Qed.
  End CO.

  Section FHMM.
    Context {Hmm Combined : Type}.
    Variable dumps : fhmm_file Payload Window Hmm Combined -> bytes.
    Variable loads : bytes -> option (fhmm_file Payload Window Hmm Combined).
    Notation export := (export_fhmm dumps).
    Notation import := (import_fhmm unbounded can_open loads).

    Lemma fhmm_export : forall c individual meters (h : heap) objs f l d, refers h individual objs -> Forall on_hdf objs -> NoDup (map snd individual) ->
      export (mkFhmm c (Some (individual, meters))) h f l d
      = let '(d', e) := write d f (dumps (mkFhmmFile c (combine (map fst individual) (map named objs)))) l in (mkFhmm c (Some (individual, meters)), h, d', e).
    Proof.
      intros c individual meters h objs f l d R F N. pose proof (refers_in _ _ _ R F) as FI.
      destruct (swap_fine _ _ N FI) as (h' & E & RN). unfold export_fhmm. cbn [fh_trained fh_model]. rewrite E.
      rewrite (objects_named _ _ _ _ R RN), (restored _ _ _ N FI RN). reflexivity.
    Qed.
    Lemma fhmm_restored : forall c individual meters (h : heap) objs f l d, refers h individual objs -> Forall on_hdf objs -> NoDup (map snd individual) ->
      exists d' e, export (mkFhmm c (Some (individual, meters))) h f l d = (mkFhmm c (Some (individual, meters)), h, d', e)
        /\ (forall g, g <> f -> get d' g = get d g) /\ (e = None <-> l = Fine) /\ (l = Refused -> d' = d).
    Proof.
      intros c individual meters h objs f l d R F N. rewrite (fhmm_export _ _ _ _ _ _ _ _ R F N).
      set (b := dumps _). destruct (write_any d f b l) as (d' & e & E & H). rewrite E. now exists d', e.
    Qed.

    Lemma fhmm_kept : forall c individual meters (o2 : fhmm Hmm Combined) (h h2 : heap) objs f d d2,
      pickles dumps loads -> refers h individual objs -> Forall (reopens can_open) objs -> NoDup (map snd individual) ->
      get d2 f = get (snd (fst (export (mkFhmm c (Some (individual, meters))) h f Fine d))) f ->
      exists individual2 news, import o2 h2 f d2 = (mkFhmm c (Some (individual2, Some (map snd individual2))), h2 ++ news, None)
        /\ map fst individual2 = map fst individual
        /\ refers (h2 ++ news) individual2 news /\ Forall2 (same_file unbounded) objs news.
    Proof.
      intros c individual meters o2 h h2 objs f d d2 [P _] R F N G. pose proof (reopens_hdf _ _ F) as FH.
      pose proof (refers_length _ _ _ R) as L.
      rewrite (fhmm_export _ _ _ _ _ _ _ _ R FH N) in G. cbn [write fst snd] in G. rewrite own_file in G.
      unfold import_fhmm, read. rewrite G, P. cbn [ff_model ff_individual].
      rewrite fst_combined, snd_combined by (rewrite !map_length; auto).
      rewrite combine_length, !map_length, L, Nat.min_id.
      replace (length objs) with (length (map named objs)) by apply map_length.
      rewrite (reopen_all unbounded can_open _ h2 (reopens_named _ _ F)).
      exists (combine (map fst individual) (seq (length h2) (length (map named objs)))), (map (opened unbounded) (map named objs)).
      assert (LL : length (map fst individual) = length (seq (length h2) (length (map named objs)))) by (rewrite seq_length, !map_length; auto).
      split; [rewrite (snd_combined _ _ LL); reflexivity|].
      split; [apply fst_combined; auto|].
      split; [|apply named_opened; auto].
      replace (length (map named objs)) with (length (map (opened unbounded) (map named objs))) by apply map_length.
      apply refers_new. rewrite !map_length; auto.
    Qed.

    Lemma fhmm_failed : forall c individual meters (h : heap) pre m post objs f l d,
      individual = pre ++ m :: post -> refers h pre objs -> Forall on_hdf objs -> NoDup (map snd pre) ->
      (forall x, nth_error h (snd m) = Some x -> ~ on_hdf x) ->
      exists h' news, export (mkFhmm c (Some (individual, meters))) h f l d = (mkFhmm c (Some (individual, None)), h', d, Some AttributeError)
        /\ refers h' pre news /\ Forall2 only_name objs news /\ (forall q, ~ In q (map snd pre) -> nth_error h' q = nth_error h q).
    Proof.
      intros c individual meters h pre m post objs f l d E R F N NO. pose proof (refers_in _ _ _ R F) as FI.
      destruct (swap_fails (map snd pre) (snd m) (map snd post) h N FI NO) as (os & h' & S & RN).
      assert (E' : map snd individual = map snd pre ++ snd m :: map snd post) by (rewrite E, map_app; reflexivity).
      exists h', (map named objs). unfold export_fhmm. cbn [fh_trained fh_model]. rewrite E', S. split; [reflexivity|].
      split; [apply (refers_renamed h h' (map snd pre)); auto; apply incl_refl|]. split; [apply named_names; auto|].
      intros q Q; rewrite RN; destruct (in_dec Nat.eq_dec q (map snd pre)); [contradiction|reflexivity].
    Qed.
  End FHMM.
End Disaggregators.

Section Hart.
  Context {Value : Type}.
  Variable dumps : hart_dict Value -> bytes.
  Variable loads : bytes -> option (hart_dict Value).

  Lemma item_value : forall (d : hart_dict Value) k, item d k = value_of d k.
  Proof.
    unfold value_of. induction d as [|[j v] d IH]; intros k; [reflexivity|]. cbn. destruct (String.eqb j k); [reflexivity|apply IH].
  Qed.
  Lemma set_all : forall (m : hart_dict Value) ks attrs, NoDup ks -> (forall k, In k ks -> value_of m k <> None) ->
    exists attrs', set_attrs m ks attrs = (attrs', None)
      /\ (forall k, In k ks -> value_of attrs' k = value_of m k) /\ (forall k, ~ In k ks -> value_of attrs' k = value_of attrs k).
  Proof.
    induction ks as [|k ks IH]; intros attrs N H.
    - exists attrs. split; [reflexivity|]. split; [intros k []|reflexivity].
    - apply NoDup_cons_iff in N. destruct N as [NI N]. cbn [set_attrs]. rewrite item_value.
      pose proof (H k (or_introl eq_refl)) as K. destruct (value_of m k) as [v|] eqn:E; [|congruence].
      destruct (IH ((k, v) :: attrs) N) as (a' & E' & V & O); [intros; apply H; now right|].
      exists a'. split; [exact E'|]. split.
      + intros j [<-|J]; [|auto]. rewrite E, O by auto. unfold value_of. cbn. now rewrite String.eqb_refl.
      + intros j J. rewrite O by (intros B; apply J; now right). unfold value_of. cbn.
        destruct (String.eqb_spec k j) as [->|]; [destruct J; now left|reflexivity].
  Qed.

  Lemma hart_kept : forall (o o2 : hart Value) f d d2, pickles dumps loads -> (forall k, In k hart_parts -> value_of (ha_model o) k <> None) ->
    get d2 f = get (fst (export_hart dumps o f Fine d)) f ->
    exists attrs, import_hart loads o2 f d2 = (mkHart (ha_model o) attrs, None)
      /\ (forall k, In k hart_parts -> value_of attrs k = value_of (ha_model o) k) /\ (forall k, ~ In k hart_parts -> value_of attrs k = value_of (ha_attrs o2) k).
  Proof.
    intros o o2 f d d2 [P _] H G. unfold export_hart in G. cbn [write fst] in G. rewrite own_file in G.
    unfold import_hart, read. rewrite G, P.
    destruct (set_all (ha_model o) hart_parts (ha_attrs o2)) as (a & E & V & O); [|exact H|].
    - unfold hart_parts. repeat (apply NoDup_cons; [cbn; intuition discriminate|]). apply NoDup_nil.
    - change attributes with hart_parts. rewrite E. now exists a.
  Qed.
  Lemma hart_untrained : forall (o o2 : hart Value) f d d2, pickles dumps loads -> ha_model o = [] ->
    get d2 f = get (fst (export_hart dumps o f Fine d)) f ->
    snd (export_hart dumps o f Fine d) = None /\ import_hart loads o2 f d2 = (mkHart [] (ha_attrs o2), Some KeyError).
  Proof.
    intros o o2 f d d2 [P _] H G. unfold export_hart in *. cbn [write fst snd] in *. rewrite own_file in G. split; [reflexivity|].
    unfold import_hart, read. rewrite G, P, H. reflexivity.
  Qed.
End Hart.
