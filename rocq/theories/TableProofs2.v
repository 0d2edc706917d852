(** Proofs for TableSpec: correlations, proportions, and summaries of nested groups. *)
From Coq Require Import Permutation Sorted Lia Reals.
From Verif Require Import Base PipelineModel ColumnsModel TopModel CorrModel TopSpec CorrSpec CorrProofs TableModel TableSpec TableProofs.
Import List. Open Scope nat_scope.

Section C.
Context {M I : Type} (I_dec : forall x y : I, {x = y} + {x <> y}) (ident : M -> I) (period : M -> Z) (load : M -> Z -> list chunk).

Lemma correlation_ok ms : NoDup (map ident ms) -> exists fr, pairwise_correlation I_dec ident period load ms = Ok fr.
Proof.
  intros N. destruct (pairwise_correlation I_dec ident period load ms) as [fr|e] eqn:E; [exists fr; reflexivity|].
  apply pairwise_fails in E; [|exact N]. destruct E as (i & j & a & b & _ & _ & _ & E & _). discriminate.
Qed.
Lemma correlation_cells ms fr i j a b ps : NoDup (map ident ms) -> pairwise_correlation I_dec ident period load ms = Ok fr ->
  at_place ms i a -> at_place ms j b -> i <= j ->
  aligned (load a (Z.max (period a) (period b))) (load b (Z.max (period a) (period b))) ps -> 2 <= length ps ->
  forall r, (cell fr (ident a) (ident b) (CVal r) <-> pearson ps r) /\ (cell fr (ident b) (ident a) (CVal r) <-> pearson ps r).
Proof.
  intros N E Ha Hb L Al L2 r. destruct (pairwise_value I_dec ident _ ms fr N E) as [_ Hv].
  destruct (Hv i j a b L Ha Hb) as (v & Ev & C1 & C2). unfold correlate in Ev. injection Ev as Ev.
  destruct (corr_pearson _ _ _ Al) as [K _]. specialize (K L2 r). rewrite <- K, Ev. clear K.
  split; (split; [intros C|intros C; rewrite <- C; assumption]); [exact (cell_unique I_dec _ _ _ _ _ C1 C)|exact (cell_unique I_dec _ _ _ _ _ C2 C)].
Qed.
Lemma correlation_order ms ms' fr : NoDup (map ident ms) -> Permutation ms ms' ->
  (forall a b, In a ms -> In b ms -> exists ps, aligned (load a (Z.max (period a) (period b))) (load b (Z.max (period a) (period b))) ps) ->
  pairwise_correlation I_dec ident period load ms = Ok fr -> exists fr', pairwise_correlation I_dec ident period load ms' = Ok fr' /\
  forall i j v, cell fr' i j v <-> cell fr i j v.
Proof.
  intros N P Al E. apply (pairwise_order I_dec ident _ ms ms' fr N P); [|exact E].
  intros a b Ha Hb. unfold correlate. destruct (Al a b Ha Hb) as [ps K]. f_equal. rewrite (Z.max_comm (period b)).
  symmetry. exact (corr_symmetric _ _ _ K).
Qed.
End C.

Lemma correlation_order_refuted : exists (load : nat -> Z -> list chunk) fr fr',
  pairwise_correlation Nat.eq_dec (fun m => m) (fun _ => 6%Z) load [0; 1] = Ok fr /\
  pairwise_correlation Nat.eq_dec (fun m => m) (fun _ => 6%Z) load [1; 0] = Ok fr' /\
  cell fr 0 1 (CVal 2) /\ cell fr' 0 1 (CVal (/ 2)).
Proof.
  destruct corr_span as (xs & ys & _ & E1 & E2).
  exists (fun m _ => if Nat.eqb m 0 then xs else ys).
  assert (N : NoDup (map (fun m : nat => m) [0; 1])) by (repeat constructor; cbn; intuition discriminate).
  assert (N' : NoDup (map (fun m : nat => m) [1; 0])) by (repeat constructor; cbn; intuition discriminate).
  destruct (correlation_ok Nat.eq_dec (fun m => m) (fun _ => 6%Z) (fun m _ => if Nat.eqb m 0 then xs else ys) _ N) as [fr E].
  destruct (correlation_ok Nat.eq_dec (fun m => m) (fun _ => 6%Z) (fun m _ => if Nat.eqb m 0 then xs else ys) _ N') as [fr' E'].
  exists fr, fr'. split; [exact E|]. split; [exact E'|].
  destruct (pairwise_value Nat.eq_dec (fun m => m) _ _ _ N E) as [_ Hv]. destruct (pairwise_value Nat.eq_dec (fun m => m) _ _ _ N' E') as [_ Hv'].
  destruct (Hv 0 1 0 1 ltac:(lia) eq_refl eq_refl) as (v & Ev & C & _). destruct (Hv' 0 1 1 0 ltac:(lia) eq_refl eq_refl) as (w & Ew & _ & D).
  unfold correlate in *. cbn [Nat.eqb] in *. rewrite E1 in Ev. rewrite E2 in Ew. injection Ev as <-. injection Ew as <-. split; assumption.
Qed.

Section U.
Context {M I : Type} (I_dec : forall x y : I, {x = y} + {x <> y}) (ident : M -> I) (sort : list (I * option num) -> list (I * option num))
  (upstream : M -> res (option M)) (share : M -> M -> res num).
Lemma upstream_value ms s : sorts_down sort -> NoDup (map ident ms) -> upstream_per_meter I_dec ident sort upstream share ms = Ok s ->
  descending s /\ exists s0, Permutation s0 s /\
    Forall2 (fun m p => fst p = ident m /\ exists u v, upstream m = Ok (Some u) /\ share m u = Ok v /\ snd p = Some v) ms s0.
Proof.
  intros S N. unfold upstream_per_meter. pose proof (call_on_all_cases I_dec ident (proportion_of_upstream upstream share) ms N) as K.
  destruct (call_on_all _ _ _ ms) as [s0|e]; cbn [bind]; [|discriminate]. intros [= <-]. destruct (S s0) as [S1 S2].
  split; [exact S2|]. exists s0. split; [exact S1|]. clear S S1 S2 N. induction K as [|m p ms s [K1 (v & K2 & K3)] K IH]; constructor; [|exact IH].
  split; [exact K1|]. unfold proportion_of_upstream in K2. destruct (upstream m) as [[u|]|e]; cbn [bind] in K2; try discriminate.
  exists u, v. repeat split; assumption.
Qed.
Lemma upstream_site l m l' : NoDup (map ident (l ++ m :: l')) -> upstream m = Ok None ->
  (forall x, In x l -> exists u v, upstream x = Ok (Some u) /\ share x u = Ok v) ->
  upstream_per_meter I_dec ident sort upstream share (l ++ m :: l') = Err AttributeError.
Proof.
  intros N E H. unfold upstream_per_meter.
  rewrite (first_error I_dec ident (proportion_of_upstream upstream share) _ AttributeError l m l' eq_refl); [reflexivity| | |exact N].
  - unfold proportion_of_upstream. rewrite E. reflexivity.
  - intros x Hx. destruct (H x Hx) as (u & v & Eu & Ev). exists v. unfold proportion_of_upstream. rewrite Eu. exact Ev.
Qed.
End U.

(** Trees. *)
Section T.
Context {A : Type} (P : tree A -> Prop) (Hleaf : forall x, P (Leaf x)) (Hgroup : forall l, Forall P l -> P (Group l)).
Fixpoint tree_ind' (t : tree A) : P t :=
  match t with
  | Leaf x => Hleaf x
  | Group l => Hgroup l ((fix all (l : list (tree A)) : Forall P l := match l with [] => Forall_nil _ | t :: r => Forall_cons t (tree_ind' t) (all r) end) l)
  end.
End T.

Lemma mapM_id {A} (l : list (res A)) vs : mapM (fun r => r) l = Ok vs <-> Forall2 (fun r v => r = Ok v) l vs.
Proof.
  revert vs. induction l as [|r l IH]; intros vs; cbn [mapM].
  - split; [intros [= <-]; constructor|inversion 1; reflexivity].
  - destruct r as [x|e]; cbn [bind].
    + destruct (mapM (fun r => r) l) as [ys|e] eqn:E; cbn [bind].
      * split; [intros [= <-]; constructor; [reflexivity|apply IH; reflexivity]|]. inversion 1 as [|? y ? ys' E1 F]; subst. apply IH in F. congruence.
      * split; [discriminate|]. inversion 1 as [|? y ? ys' E1 F]; subst. apply IH in F. discriminate.
    + split; [discriminate|]. inversion 1 as [|? y ? ys' E1 F]; subst. discriminate.
Qed.
Lemma mapM_id_err {A} (l : list (res A)) e : mapM (fun r => r) l = Err e -> In (Err e) l.
Proof.
  induction l as [|r l IH]; cbn [mapM]; [discriminate|]. destruct r as [x|e']; cbn [bind].
  - destruct (mapM (fun r => r) l) as [ys|e'']; cbn [bind]; [discriminate|]. intros [= ->]. right. apply IH. reflexivity.
  - intros [= ->]. left. reflexivity.
Qed.

Lemma py_max_some x r : exists m, py_max (map Some (x :: r)) = Ok (Some m) /\ In m (x :: r) /\ forall y, In y (x :: r) -> (y <= m)%Z.
Proof.
  cbn [map py_max]. revert x. induction r as [|y r IH]; intros x; cbn [map foldM].
  - exists x. split; [reflexivity|]. split; [left; reflexivity|]. intros y [<-|[]]. lia.
  - cbn [bind]. destruct (IH (Z.max x y)) as (m & E & Hin & Hle). exists m. split; [exact E|]. split.
    + destruct Hin as [E'|Hin]; [|right; right; exact Hin]. rewrite <- E'. destruct (Z.max_spec x y) as [[_ ->]|[_ ->]]; [right; left|left]; reflexivity.
    + pose proof (Hle _ (or_introl eq_refl)). intros z [<-|[<-|Hz]]; [lia|lia|]. apply Hle. right. exact Hz.
Qed.
Definition top_period (t : tree (option Z)) (m : Z) : Prop :=
  sample_period t = Ok (Some m) /\ leaf_of t (Some m) /\ forall p, leaf_of t (Some p) -> (p <= m)%Z.
Lemma periods_cases l : Forall (fun t => hollow t /\ sample_period t = Err ValueError \/ ~ hollow t /\ exists m, top_period t m) l ->
  (exists t, In t l /\ hollow t) /\ mapM (fun r => r) (map sample_period l) = Err ValueError \/
  ~ (exists t, In t l /\ hollow t) /\ exists ms, mapM (fun r => r) (map sample_period l) = Ok (map Some ms) /\ Forall2 top_period l ms.
Proof.
  induction 1 as [|t l H F IH]; cbn [map mapM].
  - right. split; [intros (t & [] & _)|]. exists []. split; [reflexivity|constructor].
  - destruct H as [[Hh ->]|[Hn (m & Hm)]]; cbn [bind].
    + left. split; [exists t; split; [left; reflexivity|exact Hh]|reflexivity].
    + destruct Hm as [E Hm]. rewrite E. cbn [bind]. destruct IH as [[(t' & Ht' & Hh) ->]|[Hn' (ms & -> & Hms)]]; cbn [bind].
      * left. split; [exists t'; split; [right; exact Ht'|exact Hh]|reflexivity].
      * right. split; [intros (t' & [<-|Ht'] & Hh); [contradiction|apply Hn'; exists t'; split; assumption]|].
        exists (m :: ms). split; [reflexivity|]. constructor; [split; assumption|exact Hms].
Qed.
Lemma sample_period_cases t : (forall p, leaf_of t p -> p <> None) ->
  hollow t /\ sample_period t = Err ValueError \/ ~ hollow t /\ exists m, top_period t m.
Proof.
  induction t as [p|l IH] using tree_ind'; intros Hp.
  - right. split; [inversion 1|]. destruct p as [p|]; [|destruct (Hp None (leaf_self _) eq_refl)].
    exists p. split; [reflexivity|]. split; [constructor|]. inversion 1; subst. lia.
  - cbn [sample_period]. destruct (periods_cases l) as [[(t & Ht & Hh) E]|[Hn (ms & E & Hms)]].
    + rewrite Forall_forall in *. intros t Ht. apply IH; [exact Ht|]. intros p Hl. apply Hp. exact (leaf_group _ _ _ Ht Hl).
    + left. split; [exact (hollow_group _ _ Ht Hh)|]. rewrite E. reflexivity.
    + destruct Hms as [|t m l ms Hm Hms].
      * left. split; [constructor|reflexivity].
      * right. split; [inversion 1; subst; apply Hn; eexists; split; eassumption|].
        destruct (py_max_some m ms) as (x & Ex & Hin & Hle). exists x. split; [cbn [sample_period]; rewrite E; exact Ex|].
        assert (G : Forall2 top_period (t :: l) (m :: ms)) by (constructor; assumption). clear Hm Hms E Ex IH Hp Hn.
        assert (G1 : forall y, In y (m :: ms) -> exists t', In t' (t :: l) /\ top_period t' y).
        { clear Hin Hle. induction G as [|t' y l' ms' H G IHG]; [intros y []|]. intros z [<-|Hz]; [exists t'; split; [left; reflexivity|exact H]|].
          destruct (IHG z Hz) as (t'' & Ht & H'). exists t''. split; [right; exact Ht|exact H']. }
        assert (G2 : forall t', In t' (t :: l) -> exists y, In y (m :: ms) /\ top_period t' y).
        { clear Hin Hle G1. induction G as [|t' y l' ms' H G IHG]; [intros y []|]. intros z [<-|Hz]; [exists y; split; [left; reflexivity|exact H]|].
          destruct (IHG z Hz) as (t'' & Ht & H'). exists t''. split; [right; exact Ht|exact H']. }
        split.
        -- destruct (G1 x Hin) as (t' & Ht' & _ & Hl & _). exact (leaf_group _ _ _ Ht' Hl).
        -- intros p Hl. inversion Hl as [|? t' ? Ht' Hl']; subst. destruct (G2 t' Ht') as (y & Hy & _ & _ & Hle'). specialize (Hle' p Hl'). specialize (Hle y Hy). lia.
Qed.
Lemma sample_period_max t : (forall p, leaf_of t p -> p <> None) ->
  (sample_period t = Err ValueError <-> hollow t) /\
  (~ hollow t -> exists m, sample_period t = Ok (Some m) /\ leaf_of t (Some m) /\ forall p, leaf_of t (Some p) -> (p <= m)%Z).
Proof.
  intros Hp. destruct (sample_period_cases t Hp) as [[H E]|[H (m & Hm)]].
  - split; [split; [intros _; exact H|intros _; exact E]|intros N; contradiction].
  - split; [|intros _; exists m; exact Hm]. destruct Hm as [E _]. rewrite E. split; [discriminate|contradiction].
Qed.
Lemma sample_period_missing ps : 2 <= length ps -> In None ps -> sample_period (Group (map Leaf ps)) = Err TypeError.
Proof.
  intros L H. cbn [sample_period].
  assert (E : mapM (fun r => r) (map sample_period (map Leaf ps)) = Ok ps).
  { clear. induction ps as [|p ps IH]; [reflexivity|]. cbn [map mapM sample_period bind]. rewrite IH. reflexivity. }
  rewrite E. cbn [bind]. destruct ps as [|x [|y r]]; cbn [length] in L; try lia. cbn [py_max].
  assert (K : forall r x, r <> [] -> In None (x :: r) ->
    foldM (fun a b => match a, b with Some x, Some y => Ok (Some (Z.max x y)) | _, _ => Err TypeError end) r x = Err TypeError).
  { clear. induction r as [|y r IH]; intros x N H; [congruence|]. cbn [foldM]. destruct x as [x|]; [|reflexivity]. destruct y as [y|]; [|reflexivity]. cbn [bind].
    destruct H as [H|[H|H]]; try discriminate. apply IH; [intros ->; contradiction|right; exact H]. }
  apply K; [discriminate|exact H].
Qed.

(** AC types. *)
Section A.
Context (order : list acname -> list acname) (Ho : distinct order).
Lemma known_in p : known p <-> In p PHYSICAL_QUANTITIES.
Proof. split; [destruct p; cbn; tauto|]. intros H. cbn in H. repeat (destruct H as [<-|H]; [exact Logic.I|]). destruct H. Qed.
Lemma ac_one ms p : known p -> exists ts, available_ac_types ms p = Ok ts /\ forall a, In a ts <-> In (p, Some a) ms.
Proof.
  intros K. unfold available_ac_types. destruct (in_dec pq_dec p PHYSICAL_QUANTITIES) as [_|N]; [|destruct (N (proj1 (known_in p) K))].
  eexists. split; [reflexivity|]. intros a. rewrite in_flat_map. split.
  - intros ([q o] & Hm & Ha). cbn [fst snd] in Ha. destruct (pq_dec q p) as [->|]; [|contradiction]. destruct o as [b|]; [|contradiction].
    destruct Ha as [<-|[]]. exact Hm.
  - intros Hm. exists (p, Some a). split; [exact Hm|]. cbn [fst snd]. destruct (pq_dec p p); [left; reflexivity|congruence].
Qed.
Lemma ac_unknown ms p : ~ known p -> available_ac_types ms p = Err ValueError.
Proof. intros N. unfold available_ac_types. destruct (in_dec pq_dec p PHYSICAL_QUANTITIES) as [K|_]; [destruct (N (proj2 (known_in p) K))|reflexivity]. Qed.
Lemma known_dec p : known p \/ ~ known p.
Proof. destruct p; cbn; tauto. Qed.

Lemma meter_ac ms arg : valid_request arg ->
  exists ts, meter_ac_types order ms arg = Ok ts /\ forall a, In a ts <-> exists p, asked arg p /\ In (p, Some a) ms.
Proof.
  intros [V1 V2]. destruct arg as [|p|l]; [congruence| |]; cbn [asked meter_ac_types] in *.
  - destruct (ac_one ms p (V2 p eq_refl)) as (ts & E & H). exists ts. split; [exact E|]. intros a. rewrite H. split; [intros K; exists p; split; [reflexivity|exact K]|].
    intros (q & -> & K). exact K.
  - assert (K : exists ts, mapM (available_ac_types ms) l = Ok ts /\ forall a, In a (concat ts) <-> exists p, In p l /\ In (p, Some a) ms).
    { clear V1. induction l as [|p l IH]; [exists []; split; [reflexivity|]; intros a; split; [intros []|intros (q & [] & _)]|].
      destruct (ac_one ms p (V2 p (or_introl eq_refl))) as (ts & E & H). destruct IH as (tss & E' & H'); [intros q Hq; apply V2; right; exact Hq|].
      exists (ts :: tss). cbn [mapM]. rewrite E. cbn [bind]. rewrite E'. cbn [bind]. split; [reflexivity|]. intros a. cbn [concat]. rewrite in_app_iff, H, H'. split.
      - intros [K|(q & Hq & K)]; [exists p; split; [left; reflexivity|exact K]|exists q; split; [right; exact Hq|exact K]].
      - intros (q & [<-|Hq] & K); [left; exact K|right; exists q; split; assumption]. }
    destruct K as (ts & -> & H). cbn [bind]. eexists. split; [reflexivity|]. intros a. destruct (Ho (concat ts)) as [_ Ho']. rewrite Ho'. apply H.
Qed.
Lemma meter_ac_bad ms arg : ~ valid_request arg -> meter_ac_types order ms arg = Err ValueError.
Proof.
  intros V. destruct arg as [|p|l]; cbn [meter_ac_types]; [reflexivity| |].
  - apply ac_unknown. intros K. apply V. split; [discriminate|]. intros q. cbn. intros ->. exact K.
  - assert (K : mapM (available_ac_types ms) l = Err ValueError); [|rewrite K; reflexivity].
    assert (V' : ~ forall p, In p l -> known p) by (intros K; apply V; split; [discriminate|exact K]). clear V.
    induction l as [|p l IH]; [exfalso; apply V'; intros p []|]. cbn [mapM]. destruct (known_dec p) as [K|K].
    + destruct (ac_one ms p K) as (ts & -> & _). cbn [bind]. rewrite IH; [reflexivity|]. intros H. apply V'. intros q [<-|Hq]; [exact K|exact (H q Hq)].
    + rewrite ac_unknown by exact K. reflexivity.
Qed.
Lemma group_ac arg t : valid_request arg ->
  exists ts, group_ac_types order arg t = Ok ts /\ forall a, In a ts <-> exists ms p, leaf_of t ms /\ asked arg p /\ In (p, Some a) ms.
Proof.
  intros V. induction t as [ms|l IH] using tree_ind'.
  - destruct (meter_ac ms arg V) as (ts & E & H). exists ts. split; [exact E|]. intros a. rewrite H. split.
    + intros (p & K). exists ms, p. split; [constructor|exact K].
    + intros (ms' & p & Hl & K). inversion Hl; subst. exists p. exact K.
  - cbn [group_ac_types].
    assert (K : exists ts, mapM (fun r => r) (map (group_ac_types order arg) l) = Ok ts /\
      forall a, In a (concat ts) <-> exists t ms p, In t l /\ leaf_of t ms /\ asked arg p /\ In (p, Some a) ms).
    { induction IH as [|t l (ts & E & H) F IHl]; [exists []; split; [reflexivity|]; intros a; split; [intros []|intros (t & _ & _ & [] & _)]|].
      destruct IHl as (tss & E' & H'). exists (ts :: tss). cbn [map mapM]. rewrite E. cbn [bind]. rewrite E'. split; [reflexivity|]. intros a. cbn [concat].
      rewrite in_app_iff, H, H'. split.
      - intros [(ms & p & K)|(t' & ms & p & Ht & K)]; [exists t, ms, p; split; [left; reflexivity|exact K]|exists t', ms, p; split; [right; exact Ht|exact K]].
      - intros (t' & ms & p & [<-|Ht] & K); [left; exists ms, p; exact K|right; exists t', ms, p; split; assumption]. }
    destruct K as (ts & -> & H). cbn [bind]. eexists. split; [reflexivity|]. intros a. destruct (Ho (concat ts)) as [_ Ho']. rewrite Ho', H. split.
    + intros (t & ms & p & Ht & Hl & K). exists ms, p. split; [exact (leaf_group _ _ _ Ht Hl)|exact K].
    + intros (ms & p & Hl & K). inversion Hl as [|? t ? Ht Hl']; subst. exists t, ms, p. split; [exact Ht|split; [exact Hl'|exact K]].
Qed.
Lemma group_ac_once arg l ts : group_ac_types order arg (Group l) = Ok ts -> NoDup ts.
Proof.
  cbn [group_ac_types]. destruct (mapM _ _) as [tss|e]; cbn [bind]; [|discriminate]. intros [= <-]. destruct (Ho (concat tss)) as [K _]. exact K.
Qed.
Lemma group_ac_bad arg t : ~ valid_request arg -> (exists ms, leaf_of t ms) -> group_ac_types order arg t = Err ValueError.
Proof.
  intros V.
  assert (K : (exists ms, leaf_of t ms) /\ group_ac_types order arg t = Err ValueError \/ ~ (exists ms, leaf_of t ms) /\ exists ts, group_ac_types order arg t = Ok ts).
  { induction t as [ms|l IH] using tree_ind'.
    - left. split; [exists ms; constructor|]. apply meter_ac_bad. exact V.
    - cbn [group_ac_types].
      assert (K : (exists t ms, In t l /\ leaf_of t ms) /\ mapM (fun r => r) (map (group_ac_types order arg) l) = Err ValueError \/
                  ~ (exists t ms, In t l /\ leaf_of t ms) /\ exists ts, mapM (fun r => r) (map (group_ac_types order arg) l) = Ok ts).
      { induction IH as [|t l H F IHl]; [right; split; [intros (t & ms & [] & _)|exists []; reflexivity]|]. cbn [map mapM].
        destruct H as [[(ms & Hm) ->]|[Hn (ts & ->)]]; cbn [bind].
        - left. split; [exists t, ms; split; [left; reflexivity|exact Hm]|reflexivity].
        - destruct IHl as [[(t' & ms & Ht & Hm) ->]|[Hn' (tss & ->)]]; cbn [bind].
          + left. split; [exists t', ms; split; [right; exact Ht|exact Hm]|reflexivity].
          + right. split; [intros (t' & ms & [<-|Ht] & Hm); [apply Hn; exists ms; exact Hm|apply Hn'; exists t', ms; split; assumption]|]. eexists. reflexivity. }
      destruct K as [[(t & ms & Ht & Hm) ->]|[Hn (ts & ->)]]; cbn [bind].
      + left. split; [exists ms; exact (leaf_group _ _ _ Ht Hm)|reflexivity].
      + right. split; [intros (ms & Hl); inversion Hl; subst; apply Hn; eexists; eexists; split; eassumption|]. eexists. reflexivity. }
  intros H. destruct K as [[_ E]|[N _]]; [exact E|contradiction].
Qed.
End A.
Lemma group_quantities_spec (order : list pq -> list pq) t : distinct order ->
  NoDup (group_quantities order t) /\ forall p, In p (group_quantities order t) <-> exists ms o, leaf_of t ms /\ In (p, o) ms.
Proof.
  intros Ho. split; [destruct t as [ms|l]; cbn [group_quantities]; [exact (proj1 (Ho (map fst ms)))|exact (proj1 (Ho (concat (map (group_quantities order) l))))]|].
  induction t as [ms|l IH] using tree_ind'; intros p; cbn [group_quantities].
  - rewrite (proj2 (Ho _)), in_map_iff. split.
    + intros ([q o] & <- & K). exists ms, o. split; [constructor|exact K].
    + intros (ms' & o & Hl & K). inversion Hl; subst. exists (p, o). split; [reflexivity|exact K].
  - rewrite (proj2 (Ho _)). rewrite <- flat_map_concat_map, in_flat_map. rewrite Forall_forall in IH. split.
    + intros (t & Ht & K). apply (IH t Ht) in K. destruct K as (ms & o & Hl & K). exists ms, o. split; [exact (leaf_group _ _ _ Ht Hl)|exact K].
    + intros (ms & o & Hl & K). inversion Hl as [|? t ? Ht Hl']; subst. exists t. split; [exact Ht|]. apply IH; [exact Ht|]. exists ms, o. split; assumption.
Qed.

(** Sorting. *)
Section S.
Context {M : Type} (instance : M -> inst).
Lemma lex_le_refl l : lex_le l l.
Proof. induction l; constructor; assumption. Qed.
Lemma lex_lt_false l : forall l', lex_lt l l' = false <-> lex_le l' l.
Proof.
  induction l as [|x l IH]; intros [|y l']; cbn [lex_lt].
  - split; [constructor|reflexivity].
  - split; [discriminate|inversion 1].
  - split; [constructor|reflexivity].
  - destruct (Z.eqb_spec x y) as [->|N].
    + rewrite IH. split; [apply lex_same|]. inversion 1; subst; [lia|assumption].
    + rewrite Z.ltb_ge. split; [intros L; apply lex_less; lia|]. inversion 1; subst; [lia|congruence].
Qed.
Lemma lex_le_trans l1 l2 l3 : lex_le l1 l2 -> lex_le l2 l3 -> lex_le l1 l3.
Proof.
  intros H. revert l3. induction H as [l|x y l l' L|x l l' H IH]; intros l3 K; [constructor| |].
  - inversion K; subst; apply lex_less; lia.
  - inversion K; subst; [apply lex_less; assumption|apply lex_same; auto].
Qed.
Lemma lex_le_total l : forall l', lex_le l l' \/ lex_le l' l.
Proof.
  induction l as [|x l IH]; intros [|y l']; try (left; apply lex_nil); [right; apply lex_nil|].
  destruct (Z.lt_trichotomy x y) as [L|[->|L]]; [left; apply lex_less; exact L| |right; apply lex_less; exact L].
  destruct (IH l'); [left|right]; apply lex_same; assumption.
Qed.
Lemma lex_le_anti l l' : lex_le l l' -> lex_le l' l -> l = l'.
Proof.
  induction 1 as [l|x y l l' L|x l l' H IH]; intros K; inversion K; subst; try lia; [reflexivity|]. f_equal. auto.
Qed.
Lemma inst_le_trans a b c : inst_le a b -> inst_le b c -> inst_le a c.
Proof. intros H K. inversion H; subst; inversion K; subst; constructor; [lia|eapply lex_le_trans; eassumption]. Qed.
Lemma inst_lt_cases a b : is_group a = is_group b ->
  exists r, inst_lt a b = Ok r /\ (r = false <-> inst_le b a) /\ (r = true -> inst_le a b).
Proof.
  destruct a as [a|a], b as [b|b]; cbn; intros E; try discriminate; eexists; (split; [reflexivity|]).
  - rewrite Z.ltb_ge. split; [split; [intros L; constructor; exact L|inversion 1; assumption]|]. intros L. apply Z.ltb_lt in L. constructor. lia.
  - rewrite lex_lt_false. split; [split; [intros L; constructor; exact L|inversion 1; assumption]|]. intros L. constructor.
    destruct (lex_le_total a b) as [K|K]; [exact K|]. apply lex_lt_false in K. congruence.
Qed.
Definition le_m (x y : M) : Prop := inst_le (instance x) (instance y).

Lemma insert_ok x l : one_kind instance (x :: l) -> StronglySorted le_m l ->
  exists l', insert instance x l = Ok l' /\ Permutation (x :: l) l' /\ StronglySorted le_m l' /\
    forall k, with_instance instance k l' = with_instance instance k (x :: l).
Proof.
  induction l as [|y l IH]; intros O S.
  - exists [x]. cbn. split; [reflexivity|]. split; [apply Permutation_refl|]. split; [repeat constructor|reflexivity].
  - cbn [insert]. destruct (inst_lt_cases (instance y) (instance x) (O y x (or_intror (or_introl eq_refl)) (or_introl eq_refl))) as (r & -> & Hf & Ht). cbn [bind].
    apply StronglySorted_inv in S. destruct S as [S Hy]. destruct r.
    + destruct IH as (l' & E & P & S' & W); [|exact S|].
      { intros a b Ha Hb. apply O; [destruct Ha as [<-|Ha]; [left; reflexivity|right; right; exact Ha]|destruct Hb as [<-|Hb]; [left; reflexivity|right; right; exact Hb]]. }
      rewrite E. cbn [bind]. eexists. split; [reflexivity|]. split.
      { apply Permutation_trans with (y :: x :: l); [constructor|]. constructor. exact P. }
      split.
      * constructor; [exact S'|]. apply (Permutation_Forall P). constructor; [exact (Ht eq_refl)|exact Hy].
      * intros k. unfold with_instance in *. cbn [filter]. rewrite W. cbn [filter].
        destruct (inst_dec (instance y) k) as [<-|Ny]; [|reflexivity]. destruct (inst_dec (instance x) (instance y)) as [E'|]; [|reflexivity].
        exfalso. assert (F : true = false); [|discriminate]. apply Hf. rewrite E'. destruct (instance y); constructor; [lia|apply lex_le_refl].
    + eexists. split; [reflexivity|]. split; [apply Permutation_refl|]. split; [|reflexivity].
      constructor; [constructor; assumption|]. pose proof (proj1 Hf eq_refl) as L. constructor; [exact L|].
      rewrite Forall_forall in *. intros z Hz. exact (inst_le_trans _ _ _ L (Hy z Hz)).
Qed.
Lemma sort_ok l : one_kind instance l -> exists l', sort_meters instance l = Ok l' /\ Permutation l l' /\
  StronglySorted (fun x y => inst_le (instance x) (instance y)) l' /\ forall k, with_instance instance k l' = with_instance instance k l.
Proof.
  induction l as [|x l IH]; intros O; cbn [sort_meters].
  - exists []. split; [reflexivity|]. split; [constructor|]. split; [constructor|reflexivity].
  - destruct IH as (l' & -> & P & S & W); [intros a b Ha Hb; apply O; right; assumption|]. cbn [bind].
    destruct (insert_ok x l') as (l2 & E & P2 & S2 & W2); [|exact S|].
    + intros a b Ha Hb. apply O; [destruct Ha as [<-|Ha]; [left; reflexivity|right; apply (Permutation_in _ (Permutation_sym P)); exact Ha]|
                                  destruct Hb as [<-|Hb]; [left; reflexivity|right; apply (Permutation_in _ (Permutation_sym P)); exact Hb]].
    + exists l2. split; [exact E|]. split; [apply Permutation_trans with (x :: l'); [constructor; exact P|exact P2]|]. split; [exact S2|].
      intros k. rewrite W2. unfold with_instance in *. cbn [filter]. rewrite W. reflexivity.
Qed.
Lemma sort_mixed l : ~ one_kind instance l -> sort_meters instance l = Err TypeError.
Proof.
  induction l as [|x l IH]; intros O; [exfalso; apply O; intros a b []|]. cbn [sort_meters].
  assert (D : one_kind instance l \/ ~ one_kind instance l).
  { clear. destruct l as [|y l]; [left; intros a b []|].
    destruct (Forall_Exists_dec (fun z => is_group (instance z) = is_group (instance y)) (fun z => Bool.bool_dec _ _) (y :: l)) as [F|F].
    - left. rewrite Forall_forall in F. intros a b Ha Hb. rewrite (F a Ha), (F b Hb). reflexivity.
    - right. intros O. apply Exists_exists in F. destruct F as (z & Hz & N). apply N. apply O; [exact Hz|left; reflexivity]. }
  destruct D as [D|D]; [|rewrite (IH D); reflexivity].
  destruct (sort_ok l D) as (l' & -> & P & _). cbn [bind]. destruct l' as [|y l'].
  - exfalso. apply O. apply Permutation_sym, Permutation_nil in P. subst l. intros a b [<-|[]] [<-|[]]. reflexivity.
  - cbn [insert]. assert (N : is_group (instance y) <> is_group (instance x)).
    { intros E. apply O. assert (Hy : In y l) by (apply (Permutation_in _ (Permutation_sym P)); left; reflexivity).
      assert (G : forall a, In a (x :: l) -> is_group (instance a) = is_group (instance y)) by (intros a [<-|Ha]; [congruence|exact (D a y Ha Hy)]).
      intros a b Ha Hb. rewrite (G a Ha), (G b Hb). reflexivity. }
    destruct (instance y), (instance x); cbn in *; try reflexivity; congruence.
Qed.
End S.
