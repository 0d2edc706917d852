(** Proofs about exporting and importing trained models. *)
From Coq Require Import String Lia Arith.
From Verif Require Import Base PickleModel PickleSpec.
Import List. Open Scope list_scope. Open Scope nat_scope.

Section Heap.
  Context {Payload Window : Type}.
  Notation object := (object Payload Window).
  Notation heap := (heap Payload Window).

  Lemma nth_ext_error : forall {A} (l m : list A), (forall i, nth_error l i = nth_error m i) -> l = m.
  Proof.
    induction l as [|a l IH]; destruct m as [|b m]; intros H; auto.
    - specialize (H 0); discriminate.
    - specialize (H 0); discriminate.
    - pose proof (H 0) as H0; injection H0 as ->. f_equal. apply IH. intros i. exact (H (S i)).
  Qed.

  Definition with_store (a : attr Window) (o : object) : object := mkObj (payload o) a.

  Lemma nth_set : forall (h : heap) r a q,
    nth_error (set_store h r a) q = if Nat.eq_dec r q then option_map (with_store a) (nth_error h q) else nth_error h q.
  Proof.
    induction h as [|o h IH]; intros r a q.
    - destruct r, q; cbn [set_store nth_error option_map]; now destruct (Nat.eq_dec _ _).
    - destruct r as [|r], q as [|q]; cbn [set_store nth_error].
      + reflexivity.
      + destruct (Nat.eq_dec 0 (S q)); [lia|reflexivity].
      + destruct (Nat.eq_dec (S r) 0); [lia|reflexivity].
      + rewrite IH. destruct (Nat.eq_dec r q), (Nat.eq_dec (S r) (S q)); try lia; reflexivity.
  Qed.

  (** The store replaced by its file's name. *)
  Definition named (o : object) : object :=
    match o_store o with Store (Hdf f _) => with_store (Path f) o | _ => o end.
  Definition renamed (refs : list nat) (h h' : heap) : Prop :=
    forall q, nth_error h' q = if in_dec Nat.eq_dec q refs then option_map named (nth_error h q) else nth_error h q.

  Lemma swap_fine : forall refs (h : heap), NoDup refs -> Forall (fun r => exists o, nth_error h r = Some o /\ on_hdf o) refs ->
    exists h', swap refs h = (map (store_at h) refs, h', None) /\ renamed refs h h'.
  Proof.
    induction refs as [|r refs IH]; intros h N F.
    - exists h. split; [reflexivity|]. intros q. reflexivity.
    - apply NoDup_cons_iff in N. destruct N as [NI N]. apply Forall_cons_iff in F. destruct F as [(o & E & f & w & S) F].
      cbn [swap]. assert (EA : store_at h r = Store (Hdf f w)) by (unfold store_at; now rewrite E). rewrite EA. cbn [file_name].
      assert (F' : Forall (fun q => exists o, nth_error (set_store h r (Path f)) q = Some o /\ on_hdf o) refs).
      { rewrite Forall_forall in *. intros q Q. rewrite nth_set. destruct (Nat.eq_dec r q); [subst; contradiction|auto]. }
      destruct (IH _ N F') as (h' & E' & R). rewrite E'. exists h'. split.
      + cbn [map]. rewrite EA. do 3 f_equal. apply map_ext_in. intros q Q. unfold store_at. rewrite nth_set.
        destruct (Nat.eq_dec r q); [subst; contradiction|reflexivity].
      + intros q. rewrite R. rewrite nth_set.
        destruct (in_dec Nat.eq_dec q refs) as [I|I], (in_dec Nat.eq_dec q (r :: refs)) as [J|J], (Nat.eq_dec r q) as [K|K]; cbn in J; subst; try tauto.
        rewrite E. cbn. unfold named. now rewrite S.
  Qed.

  Lemma swap_fails : forall pre r post (h : heap), NoDup pre -> Forall (fun r => exists o, nth_error h r = Some o /\ on_hdf o) pre ->
    (forall o, nth_error h r = Some o -> ~ on_hdf o) ->
    exists os h', swap (pre ++ r :: post) h = (os, h', Some AttributeError) /\ renamed pre h h'.
  Proof.
    induction pre as [|p pre IH]; intros r post h N F NO.
    - exists [], h. split; [|intros q; reflexivity]. cbn [List.app swap]. unfold store_at.
      destruct (nth_error h r) as [o|] eqn:E; [|reflexivity]. specialize (NO _ eq_refl). destruct (o_store o) as [[f w|f w]|f|] eqn:S; cbn; try reflexivity.
      destruct NO. now exists f, w.
    - apply NoDup_cons_iff in N. destruct N as [NI N]. apply Forall_cons_iff in F. destruct F as [(o & E & f & w & S) F].
      cbn [swap List.app]. assert (EA : store_at h p = Store (Hdf f w)) by (unfold store_at; now rewrite E). rewrite EA. cbn [file_name].
      assert (F' : Forall (fun q => exists o, nth_error (set_store h p (Path f)) q = Some o /\ on_hdf o) pre).
      { rewrite Forall_forall in *. intros q Q. rewrite nth_set. destruct (Nat.eq_dec p q); [subst; contradiction|auto]. }
      assert (NO' : forall o, nth_error (set_store h p (Path f)) r = Some o -> ~ on_hdf o).
      { intros o' E'. rewrite nth_set in E'. destruct (Nat.eq_dec p r); [subst|now apply NO].
        rewrite E in E'. injection E' as <-. intros (? & ? & B). discriminate B. }
      destruct (IH r post _ N F' NO') as (os & h' & E' & R). rewrite E'. eexists _, h'. split; [reflexivity|].
      intros q. rewrite R. rewrite nth_set.
      destruct (in_dec Nat.eq_dec q pre) as [I|I], (in_dec Nat.eq_dec q (p :: pre)) as [J|J], (Nat.eq_dec p q) as [K|K]; cbn in J; subst; try tauto.
      rewrite E. cbn. unfold named. now rewrite S.
  Qed.

  Lemma restore_nth : forall refs g (h : heap) q, NoDup refs ->
    nth_error (restore (map g refs) refs h) q = if in_dec Nat.eq_dec q refs then option_map (with_store (g q)) (nth_error h q) else nth_error h q.
  Proof.
    unfold restore. induction refs as [|r refs IH]; intros g h q N; [reflexivity|].
    apply NoDup_cons_iff in N. destruct N as [NI N]. cbn [map combine fold_left fst snd].
    rewrite IH by auto. rewrite nth_set.
    destruct (in_dec Nat.eq_dec q refs) as [I|I], (in_dec Nat.eq_dec q (r :: refs)) as [J|J], (Nat.eq_dec r q) as [K|K]; cbn in J; subst; tauto.
  Qed.

  Lemma restored : forall refs (h h' : heap), NoDup refs -> Forall (fun r => exists o, nth_error h r = Some o /\ on_hdf o) refs ->
    renamed refs h h' -> restore (map (store_at h) refs) refs h' = h.
  Proof.
    intros refs h h' N F R. apply nth_ext_error. intros q. rewrite restore_nth, R by auto.
    destruct (in_dec Nat.eq_dec q refs) as [I|I]; [|reflexivity].
    rewrite Forall_forall in F. destruct (F q I) as (o & E & f & w & S). unfold store_at. rewrite E. cbn. unfold named. rewrite S. cbn.
    destruct o; cbn in *. unfold with_store. cbn. now rewrite S.
  Qed.

  Lemma refers_in : forall {A} (h : heap) (l : list (A * nat)) objs, refers h l objs -> Forall on_hdf objs ->
    Forall (fun r => exists o, nth_error h r = Some o /\ on_hdf o) (map snd l).
  Proof.
    intros A h l objs R. induction R as [|m o l objs E R IH]; intros F; [constructor|].
    apply Forall_cons_iff in F. destruct F as [O F]. constructor; [now exists o|auto].
  Qed.
  Lemma refers_renamed : forall {A} (h h' : heap) refs (l : list (A * nat)) objs, renamed refs h h' -> incl (map snd l) refs -> refers h l objs ->
    refers h' l (map named objs).
  Proof.
    intros A h h' refs l objs M I R. induction R as [|m o l objs E R IH]; [constructor|].
    constructor.
    - pose proof (M (snd m)) as Q. destruct (in_dec Nat.eq_dec (snd m) refs) as [_|B]; [now rewrite E in Q|].
      destruct B. apply I. now left.
    - apply IH. intros x X. apply I. now right.
  Qed.

  Variable unbounded : Window.
  Variable can_open : string -> bool.
  (** ** Opening again *)
  Definition opened (o : object) : object := match o_store o with Path f => with_store (Store (Hdf f unbounded)) o | _ => o end.
  Definition openable (o : object) : Prop := exists f, o_store o = Path f /\ can_open f = true.

  Lemma set_end : forall (h : heap) o l a, set_store (h ++ o :: l) (length h) a = h ++ with_store a o :: l.
  Proof. induction h as [|x h IH]; intros; cbn; [reflexivity|]. now rewrite IH. Qed.
  Lemma at_end : forall (h : heap) o l, store_at (h ++ o :: l) (length h) = o_store o.
  Proof. intros. unfold store_at. now rewrite nth_error_app2, Nat.sub_diag by lia. Qed.

  Lemma reopen_pre : forall pre (h : heap) post n, Forall openable pre ->
    reopen unbounded can_open (seq (length h) (length pre + n)) (h ++ pre ++ post)
    = reopen unbounded can_open (seq (length h + length pre) n) (h ++ map opened pre ++ post).
  Proof.
    induction pre as [|o pre IH]; intros h post n F; [now rewrite Nat.add_0_r|].
    apply Forall_cons_iff in F. destruct F as [(f & S & C) F].
    cbn [length Nat.add seq reopen List.app map]. rewrite at_end, S, C, set_end.
    unfold opened at 1. rewrite S.
    set (o' := with_store (Store (Hdf f unbounded)) o).
    change (o' :: pre ++ post) with ([o'] ++ pre ++ post). rewrite app_assoc.
    replace (Datatypes.S (length h)) with (length (h ++ [o'])) by (rewrite app_length; cbn; lia).
    rewrite IH by auto. rewrite app_length. cbn [length]. rewrite <- app_assoc. cbn [List.app].
    replace (length h + 1 + length pre) with (length h + Datatypes.S (length pre)) by lia. reflexivity.
  Qed.
  Lemma reopen_all : forall objs (h : heap), Forall openable objs ->
    reopen unbounded can_open (seq (length h) (length objs)) (h ++ objs) = (h ++ map opened objs, None).
  Proof.
    intros objs h F. pose proof (reopen_pre objs h [] 0 F) as E. rewrite Nat.add_0_r, !app_nil_r in E. exact E.
  Qed.
  Lemma reopen_not : forall pre o post f (h : heap), Forall openable pre -> o_store o = Path f -> can_open f = false ->
    reopen unbounded can_open (seq (length h) (length (pre ++ o :: post))) (h ++ pre ++ o :: post) = (h ++ map opened pre ++ o :: post, Some GenericException).
  Proof.
    intros pre o post f h F S C. rewrite app_length. rewrite (reopen_pre pre h (o :: post) _ F).
    cbn [length seq reopen].
    replace (length h + length pre) with (length (h ++ map opened pre)) by (rewrite app_length, map_length; reflexivity).
    rewrite app_assoc, at_end, S, C. reflexivity.
  Qed.

  (** ** What is pickled *)
  Lemma objects_named : forall {A} (h h' : heap) (l : list (A * nat)) objs, refers h l objs -> renamed (map snd l) h h' ->
    objects l h' = combine (map fst l) (map named objs).
  Proof.
    intros A h h' l0 objs R. assert (K : forall refs, incl (map snd l0) refs -> renamed refs h h' -> objects l0 h' = combine (map fst l0) (map named objs)).
    { intros refs. induction R as [|m o l objs E R IH]; intros I M; [reflexivity|].
      unfold objects in *. cbn [flat_map map combine]. pose proof (M (snd m)) as Q. destruct (in_dec Nat.eq_dec (snd m) refs) as [_|B].
      - rewrite E in Q. cbn in Q. rewrite Q. cbn [List.app]. f_equal. apply IH; auto. intros x X. apply I. now right.
      - destruct B. apply I. now left. }
    intros M. apply (K (map snd l0)); auto. apply incl_refl.
  Qed.
  Lemma refers_length : forall {A} (h : heap) (l : list (A * nat)) objs, refers h l objs -> length l = length objs.
  Proof. intros A h l objs R. induction R; cbn; auto. Qed.
  Lemma fst_combined : forall {A B} (l : list A) (m : list B), length l = length m -> map fst (combine l m) = l.
  Proof. induction l as [|a l IH]; intros [|b m] H; cbn in *; auto; try discriminate. now rewrite IH by lia. Qed.
  Lemma snd_combined : forall {A B} (l : list A) (m : list B), length l = length m -> map snd (combine l m) = m.
  Proof. induction l as [|a l IH]; intros [|b m] H; cbn in *; auto; try discriminate. now rewrite IH by lia. Qed.

  Lemma refers_new : forall {A} (l : list A) (h : heap) news, length l = length news ->
    refers (h ++ news) (combine l (seq (length h) (length news))) news.
  Proof.
    induction l as [|a l IH]; intros h [|n news] H; cbn in *; try discriminate; [constructor|].
    constructor; [cbn; now rewrite nth_error_app2, Nat.sub_diag by lia|].
    change (n :: news) with ([n] ++ news). rewrite app_assoc.
    replace (S (length h)) with (length (h ++ [n])) by (rewrite app_length; cbn; lia). apply IH. lia.
  Qed.
  Lemma named_opened : forall objs, Forall on_hdf objs -> Forall2 (same_file unbounded) objs (map opened (map named objs)).
  Proof.
    induction objs as [|[p s] objs IH]; intros F; [constructor|]. apply Forall_cons_iff in F. destruct F as [(f & w & E) F].
    cbn in E. subst s. constructor; [|auto]. split; [reflexivity|]. now exists f, w.
  Qed.
  Lemma named_names : forall objs, Forall on_hdf objs -> Forall2 only_name objs (map named objs).
  Proof.
    induction objs as [|[p s] objs IH]; intros F; [constructor|]. apply Forall_cons_iff in F. destruct F as [(f & w & E) F].
    cbn in E. subst s. constructor; [|auto]. split; [reflexivity|]. now exists f, w.
  Qed.
  Lemma reopens_hdf : forall objs : list object, Forall (reopens can_open) objs -> Forall on_hdf objs.
  Proof. intros objs F. eapply Forall_impl; [|exact F]. intros o (f & w & E & _). now exists f, w. Qed.
  Lemma reopens_named : forall objs, Forall (reopens can_open) objs -> Forall openable (map named objs).
  Proof.
    induction objs as [|[p s] objs IH]; intros F; [constructor|]. apply Forall_cons_iff in F. destruct F as [(f & w & E & C) F].
    cbn in E. subst s. constructor; [|auto]. now exists f.
  Qed.
End Heap.

Lemma get_put : forall (d : disk) f b g, get (put d f b) g = if String.eqb f g then Some b else get d g.
Proof. reflexivity. Qed.
