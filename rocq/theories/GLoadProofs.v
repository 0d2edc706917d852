From Coq Require Import QArith Permutation Sorted Lia.
From Verif Require Import Base TopModel TopProofs ColumnsModel ResampleModel ResampleProofs MetricsSpec FillSpec FillProofs GLoadModel GLoadSpec.
Open Scope Z_scope.

Definition chunk_val (c : gchunk) (col : column) (t : Z) : option Q :=
  match find_column col (g_cols c) with Some s => at_time s t | None => None end.
Lemma nan_add_none x : nan_add x None = x.
Proof. destruct x; reflexivity. Qed.
Lemma zip_map {A B C D} (f : A -> B -> C) (g : D -> A) (h : D -> B) l : zip_with f (map g l) (map h l) = map (fun x => f (g x) (h x)) l.
Proof. induction l as [|x l IH]; [reflexivity|]. cbn. rewrite IH. reflexivity. Qed.
Lemma zip_map_r {A B C} (f : A -> B -> C) (h : A -> B) l : zip_with f l (map h l) = map (fun x => f x (h x)) l.
Proof. induction l as [|x l IH]; [reflexivity|]. cbn. rewrite IH. reflexivity. Qed.
Lemma find_column_some col cols s : find_column col cols = Some s -> In (col, s) cols.
Proof.
  unfold find_column. destruct (find _ cols) as [[c s']|] eqn:E; [|discriminate]. intros H. apply find_some in E. destruct E as [I E]. cbn in E. destruct (column_dec c col); [|discriminate]. cbn in H. subst. injection H as <-. exact I.
Qed.
Lemma find_column_in col cols s : NoDup (map fst cols) -> In (col, s) cols -> find_column col cols = Some s.
Proof.
  unfold find_column. induction cols as [|[c s'] cols IH]; intros ND []; cbn.
  - injection H as -> ->. destruct (column_dec col col); [reflexivity|congruence].
  - inversion_clear ND as [|? ? N ND']. destruct (column_dec c col) as [->|]; [|apply IH; assumption]. exfalso. apply N. change col with (fst (col, s)). apply in_map, H.
Qed.
Lemma find_column_none col cols : find_column col cols = None <-> ~ In col (map fst cols).
Proof.
  split.
  - intros E I. apply in_map_iff in I. destruct I as ([c s] & E' & I). cbn in E'. subst c. unfold find_column in E. destruct (find _ cols) eqn:F; [discriminate|]. assert (X := find_none _ _ F _ I). cbn in X. destruct (column_dec col col); [discriminate|congruence].
  - intros N. destruct (find_column col cols) as [s|] eqn:E; [|reflexivity]. exfalso. apply N. apply find_column_some in E. change col with (fst (col, s)). apply in_map, E.
Qed.
Lemma distinct_ok l : NoDup l -> distinct l = true.
Proof.
  induction 1 as [|x l N ND IH]; [reflexivity|]. cbn. rewrite IH. destruct (existsb (Z.eqb x) l) eqn:E; [|reflexivity]. apply existsb_exists in E. destruct E as (y & I & E). apply Z.eqb_eq in E. subst. contradiction.
Qed.
Lemma reindex_ok index s : NoDup (map fst s) -> reindex index s = Ok (map (at_time s) index).
Proof. intros H. unfold reindex. rewrite (distinct_ok _ H). reflexivity. Qed.
Lemma add_column_ok index c col f : frame c -> add_column index c (col, map f index) = Ok (col, map (fun t => nan_add (f t) (chunk_val c col t)) index).
Proof.
  intros (_ & N & T). unfold add_column, chunk_val. cbn [fst snd]. destruct (find_column col (g_cols c)) as [s|] eqn:E.
  - assert (X := T _ (find_column_some _ _ _ E)). cbn [snd] in X. rewrite reindex_ok by (rewrite X; exact N). cbn [bind]. rewrite zip_map. reflexivity.
  - do 2 f_equal. apply map_ext. intros t. symmetry. apply nan_add_none.
Qed.
Lemma mapM_ok {A B} (f : A -> res B) (g : A -> B) l : (forall x, In x l -> f x = Ok (g x)) -> mapM f l = Ok (map g l).
Proof. induction l as [|x l IH]; intros H; [reflexivity|]. cbn. rewrite (H x (or_introl eq_refl)). cbn. rewrite IH by (intros y Hy; apply H; right; exact Hy). reflexivity. Qed.
Lemma fold_thm set_ok index columns cs : frames cs -> (set_ok = true \/ forall c, In c (usable cs) -> averages c = false) ->
  forall f, foldM (add_meter set_ok index) cs (map (fun col => (col, map (f col) index)) columns)
   = Ok (map (fun col => (col, map (fun t => fold_left nan_add (map (fun c => chunk_val c col t) (usable cs)) (f col t)) index)) columns).
Proof.
  induction cs as [|c cs IH]; intros F A f; [reflexivity|]. cbn [foldM].
  assert (F' : frames cs) by (intros d Hd; apply F; right; exact Hd).
  destruct c as [c|]; cbn [add_meter usable flat_map].
  - destruct (g_empty c) eqn:E; cbn [bind app].
    + apply IH; [exact F'|]. destruct A as [A|A]; [left; exact A|right; intros d Hd; apply A; cbn [usable flat_map]; rewrite E; exact Hd].
    + rewrite (mapM_ok _ (fun x => (fst x, map (fun t => nan_add (f (fst x) t) (chunk_val c (fst x) t)) index))).
      * cbn [bind]. assert (AV : averages c && negb set_ok = false). { destruct A as [->|A]; [rewrite Bool.andb_false_r; reflexivity|]. rewrite (A c); [reflexivity|]. cbn [usable flat_map]. rewrite E. left. reflexivity. }
        rewrite AV. cbn [bind]. rewrite map_map. cbn [fst]. apply (IH F') with (f := fun col t => nan_add (f col t) (chunk_val c col t)). destruct A as [A|A]; [left; exact A|right; intros d Hd; apply A; cbn [usable flat_map]; rewrite E; right; exact Hd].
      * intros x Hx. apply in_map_iff in Hx. destruct Hx as (col & <- & _). cbn [fst]. apply add_column_ok. apply F. left. reflexivity.
  - cbn [bind app]. apply IH; [exact F'|]. exact A.
Qed.
Lemma fold_err set_ok index cs e : forall cum, foldM (add_meter set_ok index) cs cum = Err e -> e = ValueError.
Proof.
  assert (R : forall s e, reindex index s = Err e -> e = ValueError) by (intros s e'; unfold reindex; destruct (distinct _); [discriminate|intros [= <-]; reflexivity]).
  assert (AC : forall c x e, add_column index c x = Err e -> e = ValueError). { intros c x e'. unfold add_column. destruct (find_column _ _); [|discriminate]. destruct (reindex index s) eqn:E; [discriminate|]. cbn. intros [= <-]. apply (R _ _ E). }
  assert (M : forall c l e, mapM (add_column index c) l = Err e -> e = ValueError). { induction l as [|x l IH]; intros e'; [discriminate|]. cbn. destruct (add_column index c x) eqn:E; [|intros [= <-]; apply (AC _ _ _ E)]. cbn. destruct (mapM _ l) eqn:E'; [discriminate|]. cbn. intros [= <-]. apply IH. reflexivity. }
  induction cs as [|[c|] cs IH]; intros cum; [discriminate| |]; cbn [foldM add_meter].
  - destruct (g_empty c); [apply IH|]. destruct (mapM (add_column index c) cum) as [l|e'] eqn:E; [|cbn; intros [= <-]; apply (M _ _ _ E)]. cbn. destruct (averages c && negb set_ok); [cbn; intros [= <-]; reflexivity|]. apply IH.
  - apply IH.
Qed.
Definition cell_of (cs : list (option gchunk)) (col : column) (t : Z) : option Q := fold_left nan_add (map (fun c => chunk_val c col t) (usable cs)) None.
Definition combined (index : list Z) (columns : list column) (cs : list (option gchunk)) : list (column * list (option Q)) :=
  map (fun col => (col, map (cell_of cs col) index)) columns.
Lemma combine_form set_ok index columns cs : frames cs -> (set_ok = true \/ forall c, In c (usable cs) -> averages c = false) ->
  combine_chunks set_ok index columns cs = divide_columns index (usable cs) (combined index columns cs).
Proof. intros F A. unfold combine_chunks. rewrite (fold_thm set_ok index columns cs F A (fun _ _ => None)). reflexivity. Qed.

(** Sums. *)
Lemma fold_nan l : forall x, match fold_left nan_add l x with None => valid_of (x :: l) = [] | Some v => valid_of (x :: l) <> [] /\ (v == qsum (valid_of (x :: l)))%Q end.
Proof.
  induction l as [|y l IH]; intros x; cbn [fold_left].
  - destruct x as [v|]; [|reflexivity]. split; [discriminate|]. cbn. ring.
  - assert (H := IH (nan_add x y)). destruct (fold_left nan_add l (nan_add x y)) as [v|].
    + destruct x as [a|], y as [b|]; cbn in *; destruct H as [H1 H2]; (split; [try discriminate; exact H1|]); rewrite H2; ring.
    + destruct x as [a|], y as [b|]; cbn in *; try discriminate; exact H.
Qed.
Lemma at_time_reading s t : NoDup (map fst s) -> flat_map (fun y => if fst y =? t then match snd y with Some v => [v] | None => [] end else []) s = valid_of [at_time s t].
Proof.
  unfold at_time. induction s as [|[a v] s IH]; intros ND; [reflexivity|]. cbn [flat_map find fst snd]. inversion_clear ND as [|? ? N ND']. destruct (Z.eqb_spec a t) as [->|].
  - assert (X : forall s : samples, ~ In t (map fst s) -> flat_map (fun y => if fst y =? t then match snd y with Some v => [v] | None => [] end else []) s = @nil Q).
    { induction s0 as [|[b w] s0 IH0]; intros H; [reflexivity|]. cbn [flat_map fst snd]. destruct (Z.eqb_spec b t) as [->|]; [exfalso; apply H; left; reflexivity|]. apply IH0. intros I. apply H. right. exact I. }
    rewrite (X s N). cbn. destruct v; reflexivity.
  - apply IH, ND'.
Qed.
Lemma readings_chunk c col t : frame c -> readings_of c col t = valid_of [chunk_val c col t].
Proof.
  intros (ND & NI & T). unfold readings_of, chunk_val. revert ND T. generalize (g_cols c) as cols. induction cols as [|[c' s] cols IH]; intros ND T; [reflexivity|]. inversion_clear ND as [|? ? N ND']. cbn [flat_map fst snd]. unfold find_column. cbn [find fst]. destruct (column_dec c' col) as [->|NE].
  - cbn [snd]. assert (X := T (col, s) (or_introl eq_refl)). cbn [snd] in X. rewrite at_time_reading by (rewrite X; exact NI). rewrite IH by (try exact ND'; intros x Hx; apply T; right; exact Hx). cbn [fst] in N. rewrite (proj2 (find_column_none col cols) N). cbn. rewrite app_nil_r. reflexivity.
  - rewrite IH by (try exact ND'; intros x Hx; apply T; right; exact Hx). reflexivity.
Qed.
Lemma empty_readings c col t : frame c -> g_empty c = true -> readings_of c col t = [].
Proof.
  intros F E. rewrite readings_chunk by exact F. destruct F as (_ & _ & T). unfold g_empty in E. unfold chunk_val. destruct (find_column col (g_cols c)) as [s|] eqn:FC; [|reflexivity]. apply find_column_some in FC. assert (X := T _ FC). cbn in X. destruct (g_index c); [|destruct (g_cols c); [destruct FC|discriminate]]. destruct s; [reflexivity|discriminate].
Qed.
Lemma valid_cons x l : valid_of (x :: l) = valid_of [x] ++ valid_of l.
Proof. destruct x; reflexivity. Qed.
Lemma readings_vals cs col t : frames cs -> readings cs col t = valid_of (map (fun c => chunk_val c col t) (usable cs)).
Proof.
  induction cs as [|[c|] cs IH]; intros F; [reflexivity| |]; cbn [readings flat_map usable].
  - assert (FC := F c (or_introl eq_refl)). fold (readings cs col t). fold (usable cs). rewrite IH by (intros d Hd; apply F; right; exact Hd). destruct (g_empty c) eqn:E; [rewrite (empty_readings c col t FC E); reflexivity|]. rewrite (readings_chunk c col t FC). cbn [app map]. symmetry. apply valid_cons.
  - apply IH. intros d Hd. apply F. right. exact Hd.
Qed.
Lemma cell_sum cs col t : frames cs -> is_sum (readings cs col t) (cell_of cs col t).
Proof. intros F. rewrite (readings_vals cs col t F). unfold cell_of. assert (H := fold_nan (map (fun c => chunk_val c col t) (usable cs)) None). exact H. Qed.

(** Means. *)
Lemma at_time_in s t v : at_time s t = Some v -> In (t, Some v) s.
Proof. unfold at_time. destruct (find _ s) as [[a w]|] eqn:E; [|discriminate]. apply find_some in E. destruct E as [I E]. cbn in *. apply Z.eqb_eq in E. subst. intros ->. exact I. Qed.
Lemma at_time_some s t : In t (map fst s) -> exists x, In x s /\ fst x = t /\ at_time s t = snd x.
Proof.
  intros H. apply in_map_iff in H. destruct H as (y & E & Hy). unfold at_time. destruct (find (fun x => fst x =? t) s) as [x|] eqn:F.
  - apply find_some in F. destruct F as [I F]. apply Z.eqb_eq in F. eauto.
  - assert (X := find_none _ _ F y Hy). cbn in X. lia.
Qed.
Lemma has_quantity_iff q c : has_quantity q c = true <-> exists ty, In (q, ty) (map fst (g_cols c)).
Proof.
  unfold has_quantity. rewrite existsb_exists. split.
  - intros ([[q' ty] s] & I & E). cbn in E. destruct (pq_dec q' q) as [->|]; [|discriminate]. exists ty. change (q, ty) with (fst ((q, ty), s)). apply in_map, I.
  - intros (ty & H). apply in_map_iff in H. destruct H as ([c' s'] & E & I). cbn in E. subst c'. exists ((q, ty), s'). split; [exact I|]. cbn. destruct (pq_dec q q); congruence.
Qed.
Lemma usable_in cs c : In c (usable cs) -> In (Some c) cs /\ g_empty c = false.
Proof. unfold usable. rewrite in_flat_map. intros ([d|] & I & H); [|destruct H]. destruct (g_empty d) eqn:E; [destruct H|]. destruct H as [<-|[]]. auto. Qed.
Lemma usable_not cs c : In (Some c) cs -> g_empty c = false -> In c (usable cs).
Proof. intros I E. unfold usable. apply in_flat_map. exists (Some c). split; [exact I|]. rewrite E. left. reflexivity. Qed.
Lemma counts c q t : frame c -> (forall ty, In (q, ty) (map fst (g_cols c)) -> ty = None) -> (forall s x, In ((q, None), s) (g_cols c) -> In x s -> snd x <> None) ->
  length (valid_of [chunk_val c (q, None) t]) = if has_quantity q c && existsb (Z.eqb t) (g_index c) then 1%nat else 0%nat.
Proof.
  intros (ND & NI & T) TY C. unfold chunk_val. destruct (find_column (q, None) (g_cols c)) as [s|] eqn:E.
  - apply find_column_some in E. assert (TS := T _ E). cbn in TS. replace (has_quantity q c) with true by (symmetry; apply has_quantity_iff; exists None; exact (in_map fst _ _ E)). cbn [andb]. destruct (existsb (Z.eqb t) (g_index c)) eqn:X.
    + apply existsb_exists in X. destruct X as (t' & I & X). apply Z.eqb_eq in X. subst t'. rewrite <- TS in I. destruct (at_time_some s t I) as (x & Hx & _ & ->). assert (Y := C s x E Hx). destruct (snd x); [reflexivity|congruence].
    + destruct (at_time s t) as [v|] eqn:A; [|reflexivity]. apply at_time_in in A. exfalso. assert (I : In t (g_index c)) by (rewrite <- TS; change t with (fst (t, Some v)); apply in_map, A). assert (Y : existsb (Z.eqb t) (g_index c) = true) by (apply existsb_exists; exists t; split; [exact I|apply Z.eqb_refl]). congruence.
  - apply find_column_none in E. destruct (has_quantity q c) eqn:H; [|reflexivity]. exfalso. apply E. apply has_quantity_iff in H. destruct H as (ty & H). rewrite (TY ty H) in H. exact H.
Qed.
Lemma counter_readings cs q t : frames cs -> (forall ty, chunk_columns cs (q, ty) -> ty = None) -> complete cs (q, None) ->
  counter (usable cs) q t = length (readings cs (q, None) t).
Proof.
  intros F TY C. rewrite (readings_vals cs _ t F). unfold counter.
  assert (H : forall c, In c (usable cs) -> length (valid_of [chunk_val c (q, None) t]) = if has_quantity q c && existsb (Z.eqb t) (g_index c) then 1%nat else 0%nat).
  { intros c Hc. apply usable_in in Hc. destruct Hc as [I _]. apply counts; [apply F, I|intros ty H; apply TY; exists c; auto|]. intros s x Hs. apply (C c s x I Hs). }
  revert H. induction (usable cs) as [|c l IH]; intros H; [reflexivity|]. cbn [map filter]. rewrite valid_cons, app_length, (H c (or_introl eq_refl)). rewrite <- IH by (intros d Hd; apply H; right; exact Hd). destruct (has_quantity q c && existsb (Z.eqb t) (g_index c)); reflexivity.
Qed.

Lemma to_average_in q : to_average q = true <-> In q averaged_pqs.
Proof. split; [destruct q; cbn; intuition discriminate|]. intros [<-|[<-|[<-|[<-|[]]]]]; reflexivity. Qed.
Definition final_cell (cs : list (option gchunk)) (col : column) (t : Z) : option Q :=
  if in_dec pq_dec (fst col) (filter (fun q => existsb (has_quantity q) (usable cs)) averaged_pqs) then divide_cell (counter (usable cs) (fst col) t) (cell_of cs col t) else cell_of cs col t.
Lemma divide_form index columns cs : divide_columns index (usable cs) (combined index columns cs) =
  if forallb (fun q => existsb (fun c : column => if pq_dec (fst c) q then true else false) columns) (filter (fun q => existsb (has_quantity q) (usable cs)) averaged_pqs)
  then Ok (map (fun col => (col, map (final_cell cs col) index)) columns) else Err KeyError.
Proof.
  unfold divide_columns, combined. replace (forallb (fun q => existsb (fun x => if pq_dec (fst (fst x)) q then true else false) (map (fun col => (col, map (cell_of cs col) index)) columns)) (filter (fun q => existsb (has_quantity q) (usable cs)) averaged_pqs))
    with (forallb (fun q => existsb (fun c : column => if pq_dec (fst c) q then true else false) columns) (filter (fun q => existsb (has_quantity q) (usable cs)) averaged_pqs)).
  - destruct (forallb _ _); [|reflexivity]. f_equal. rewrite map_map. apply map_ext. intros col. unfold final_cell. cbn [fst snd]. destruct (in_dec _ _ _); [rewrite zip_map_r|]; reflexivity.
  - assert (X : forall l, forallb (fun q => existsb (fun c : column => if pq_dec (fst c) q then true else false) columns) l = forallb (fun q => existsb (fun x => if pq_dec (fst (fst x)) q then true else false) (map (fun col => (col, map (cell_of cs col) index)) columns)) l); [|apply X].
    induction l as [|q l IH]; [reflexivity|]. cbn [forallb]. rewrite IH. f_equal. clear. induction columns as [|c l' IH]; [reflexivity|]. cbn. rewrite IH. reflexivity.
Qed.
Lemma averages_iff c : averages c = true <-> exists q ty, to_average q = true /\ In (q, ty) (map fst (g_cols c)).
Proof.
  unfold averages. rewrite existsb_exists. split.
  - intros ([[q ty] s] & I & E). exists q, ty. split; [exact E|]. change (q, ty) with (fst ((q, ty), s)). apply in_map, I.
  - intros (q & ty & A & H). apply in_map_iff in H. destruct H as ([c' s'] & E & I). cbn in E. subst c'. exists ((q, ty), s'). split; [exact I|]. exact A.
Qed.
Lemma fold_ok set_ok index cs : frames cs -> forall cum out, foldM (add_meter set_ok index) cs cum = Ok out -> set_ok = true \/ forall c, In c (usable cs) -> averages c = false.
Proof.
  destruct set_ok; [left; reflexivity|]. intros F. right. revert cum out H. induction cs as [|[c|] cs IH]; intros cum out H d Hd; [destruct Hd| |]; cbn [foldM add_meter usable flat_map] in *.
  - destruct (g_empty c) eqn:E; [apply (IH (fun x Hx => F x (or_intror Hx)) cum out H d Hd)|]. destruct (mapM (add_column index c) cum) as [l|]; [|discriminate]. cbn [bind] in H. destruct (averages c) eqn:A; [discriminate|]. cbn in H. destruct Hd as [<-|Hd]; [exact A|]. apply (IH (fun x Hx => F x (or_intror Hx)) l out H d Hd).
  - apply (IH (fun x Hx => F x (or_intror Hx)) cum out H d Hd).
Qed.
Lemma combine_ok_form set_ok index columns cs out : frames cs -> combine_chunks set_ok index columns cs = Ok out -> out = map (fun col => (col, map (final_cell cs col) index)) columns.
Proof.
  intros F H. assert (A : set_ok = true \/ forall c, In c (usable cs) -> averages c = false). { unfold combine_chunks in H. destruct (foldM _ cs _) as [x|] eqn:E; [|discriminate]. apply (fold_ok set_ok index cs F _ x E). }
  rewrite (combine_form set_ok index columns cs F A), divide_form in H. destruct (forallb _ _); [|discriminate]. injection H as <-. reflexivity.
Qed.
Lemma forall2_map {A B} (R : A -> B -> Prop) (f : A -> B) l : (forall x, R x (f x)) -> Forall2 R l (map f l).
Proof. intros H. induction l; constructor; auto. Qed.
Lemma combine_sum set_ok index columns cs out : frames cs -> combine_chunks set_ok index columns cs = Ok out ->
  map fst out = columns /\ forall col cells, In (col, cells) out -> ~ averaged (fst col) -> Forall2 (fun t cell => is_sum (readings cs col t) cell) index cells.
Proof.
  intros F H. apply (combine_ok_form _ _ _ _ _ F) in H. subst out. split; [rewrite map_map; apply map_id|]. intros col cells I NA. apply in_map_iff in I. destruct I as (c & E & _). injection E as -> <-. apply forall2_map. intros t. unfold final_cell. destruct (in_dec _ _ _) as [I|_]; [|apply cell_sum, F]. exfalso. apply filter_In in I. destruct I as [I _]. apply NA. unfold averaged. destruct I as [<-|[<-|[<-|[<-|[]]]]]; auto.
Qed.
Lemma final_mean cs q t : frames cs -> to_average q = true -> (forall ty, chunk_columns cs (q, ty) -> ty = None) -> complete cs (q, None) ->
  is_mean (readings cs (q, None) t) (final_cell cs (q, None) t).
Proof.
  intros F A TY C. assert (S := cell_sum cs (q, None) t F). unfold final_cell. cbn [fst]. destruct (in_dec _ _ _) as [I|N].
  - rewrite (counter_readings cs q t F TY C). destruct (cell_of cs (q, None) t) as [v|].
    + destruct S as [NE S]. destruct (length (readings cs (q, None) t)) as [|n] eqn:L; [destruct (readings cs (q, None) t); [congruence|discriminate]|]. cbn [divide_cell is_mean]. split; [exact NE|]. rewrite L, S. reflexivity.
    + cbn in S. rewrite S. cbn. reflexivity.
  - destruct (cell_of cs (q, None) t) as [v|]; [|exact S]. exfalso. destruct S as [NE _]. apply N. apply filter_In. split; [apply to_average_in, A|]. apply existsb_exists. rewrite (readings_vals cs _ t F) in NE. destruct (usable cs) as [|c l] eqn:U; [cbn in NE; congruence|]. rewrite <- U in *.
    assert (X : exists c, In c (usable cs) /\ chunk_val c (q, None) t <> None). { clear - NE. induction (usable cs) as [|c l IH]; [cbn in NE; congruence|]. cbn [map] in NE. destruct (chunk_val c (q, None) t) eqn:E; [exists c; split; [left; reflexivity|congruence]|]. destruct IH as (d & Hd & X); [intros E'; apply NE; rewrite valid_cons, E'; reflexivity|]. exists d. split; [right; exact Hd|exact X]. }
    destruct X as (d & Hd & X). exists d. split; [exact Hd|]. apply has_quantity_iff. exists None. unfold chunk_val in X. destruct (find_column (q, None) (g_cols d)) as [s|] eqn:E; [|congruence]. apply find_column_some in E. exact (in_map fst _ _ E).
Qed.
Lemma combine_mean index columns cs out : frames cs -> combine_chunks true index columns cs = Ok out ->
  forall q cells, In ((q, None), cells) out -> In q [Voltage; Pf; Frequency; PowerFactor] -> (forall ty, chunk_columns cs (q, ty) -> ty = None) -> complete cs (q, None) ->
  Forall2 (fun t cell => is_mean (readings cs (q, None) t) cell) index cells.
Proof.
  intros F H q cells I A TY C. apply (combine_ok_form _ _ _ _ _ F) in H. subst out. apply in_map_iff in I. destruct I as (c & E & _). injection E as -> <-. apply forall2_map. intros t. apply final_mean; try assumption. apply to_average_in. exact A.
Qed.
Lemma combine_works set_ok index columns cs : frames cs -> (forall q ty, chunk_columns cs (q, ty) -> to_average q = true -> set_ok = true /\ quantity_in q columns) ->
  combine_chunks set_ok index columns cs = Ok (map (fun col => (col, map (final_cell cs col) index)) columns).
Proof.
  intros F H. rewrite combine_form; [rewrite divide_form|exact F|].
  - replace (forallb _ _) with true; [reflexivity|]. symmetry. apply forallb_forall. intros q Hq. apply filter_In in Hq. destruct Hq as [Hq E]. apply existsb_exists in E. destruct E as (c & Hc & E). apply has_quantity_iff in E. destruct E as (ty & E). apply usable_in in Hc. destruct (H q ty) as [_ (ty' & I)]; [exists c; tauto|apply to_average_in, Hq|]. apply existsb_exists. exists (q, ty'). split; [exact I|]. cbn. destruct (pq_dec q q); congruence.
  - destruct set_ok; [left; reflexivity|right]. intros c Hc. destruct (averages c) eqn:E; [|reflexivity]. apply averages_iff in E. destruct E as (q & ty & A & I). apply usable_in in Hc. destruct (H q ty) as [X _]; [exists c; tauto|exact A|discriminate].
Qed.
