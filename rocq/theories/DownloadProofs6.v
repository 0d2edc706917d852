(** Lemmas on the download of Dataport: when it fails. *)
From Coq Require Import String QArith Sorted Lia.
From Verif Require Import Base LocalModel LocalSpec LocalProofs DownloadModel DownloadSpec DownloadProofs DownloadProofs2 DownloadProofs3 DownloadProofs4 DownloadProofs5.
Import List. Open Scope list_scope. Open Scope nat_scope.

Lemma fold_each : forall {A B} (f : B -> A -> res B) l b b' x, foldM f l b = Ok b' -> In x l -> exists b1 b2, f b1 x = Ok b2.
Proof.
  intros A B f l. induction l as [|y r IH]; intros b b' x H I; [destruct I|]. cbn [foldM] in H. destruct (f b y) as [b1|] eqn:E; [|discriminate]. cbn [bind] in H.
  destruct I as [<-|I]; [now exists b, b1|]. now apply (IH b1 b').
Qed.
Lemma fold_ok : forall {A B} (f : B -> A -> res B) l, (forall b x, In x l -> exists b', f b x = Ok b') -> forall b, exists b', foldM f l b = Ok b'.
Proof.
  intros A B f l. induction l as [|y r IH]; intros H b; [now exists b|]. cbn [foldM]. destruct (H b y (or_introl eq_refl)) as [b1 E]. rewrite E. cbn [bind].
  apply IH. intros c x I. apply H. now right.
Qed.
Lemma mapM_each : forall {A B} (f : A -> res B) l ys x, mapM f l = Ok ys -> In x l -> exists y, f x = Ok y.
Proof.
  intros A B f l. induction l as [|y r IH]; intros ys x H I; [destruct I|]. cbn [mapM] in H. destruct (f y) as [v|] eqn:E; [|discriminate]. cbn [bind] in H.
  destruct (mapM f r) as [vs|] eqn:M; [|discriminate]. destruct I as [<-|I]; [now exists v|]. now apply (IH vs).
Qed.
Lemma mapM_ok : forall {A B} (f : A -> res B) l, (forall x, In x l -> exists y, f x = Ok y) -> exists ys, mapM f l = Ok ys.
Proof.
  intros A B f l. induction l as [|y r IH]; intros H; [now exists []|]. cbn [mapM]. destruct (H y (or_introl eq_refl)) as [v E]. rewrite E. cbn [bind].
  destruct IH as [vs M]; [intros x I; apply H; now right|]. rewrite M. now exists (v :: vs).
Qed.

Lemma matching_in : forall db table v, In v (matching db table) <-> In v (d_views db) /\ contains (v_name v) table.
Proof. intros db table v. unfold matching. now rewrite filter_In, occurs_iff. Qed.
Lemma itself : forall s, contains s s.
Proof. intros s. exists ""%string, ""%string. cbn [String.append]. induction s as [|c s IH]; [reflexivity|]. cbn [String.append]. now f_equal. Qed.

(** Every stretch is converted. *)
Lemma each_stretch : forall z db table periods v i b lo hi o x, asks z db table periods v i b lo hi -> download z db table periods = Ok o -> In x (stretches lo hi) ->
  exists n o1 o2, to_hdf z table (v_columns v) (query z b (v_rows v) (fst x, (snd x - sec)%Z)) n b o1 = Ok o2.
Proof.
  intros z db table periods v i b lo hi o x A H I. destruct (listed table compatible) eqn:C; [|unfold download in H; rewrite C in H; discriminate H].
  unfold download in H. rewrite C in H. cbn [negb] in H. destruct (buildings db table periods) as [ids|] eqn:B; [|discriminate]. cbn [bind] in H.
  assert (P : exists s e, nth_error periods i = Some (b, (s, e))) by (destruct A as (_ & _ & _ & _ & s & e & a & a' & first & last & P & _); now exists (Some s), (Some e)). destruct P as (s & e & P).
  assert (ids = map fst periods) as -> by (unfold buildings in B; destruct periods; [destruct i; discriminate P|now injection B]).
  assert (J : In b (map fst periods)) by (apply nth_error_In in P; apply (in_map fst) in P; exact P).
  destruct (fold_each _ _ _ _ b H J) as (o1 & o2 & H1). unfold one_building in H1.
  assert (J2 : In v (matching db table)). { apply matching_in. destruct A as (IV & <- & _). split; [exact IV|apply itself]. }
  destruct (fold_each _ _ _ _ v H1 J2) as (o3 & o4 & H2). cbn beta in H2. rewrite (own_view z db table periods v i b lo hi C A) in H2.
  assert (J3 : In (fst x, (snd x - sec)%Z) (map (fun x => (fst x, (snd x - sec)%Z)) (stretches lo hi))) by (apply in_map_iff; now exists x).
  destruct (fold_each _ _ _ _ _ H2 J3) as (o5 & o6 & H3). unfold one_chunk in H3. rewrite (own_find z db table periods v i b lo hi A) in H3.
  now exists (S (position b (map fst periods))), o5, o6.
Qed.
Lemma skipped_hour : forall z db table periods v i b lo hi x r, whole_zone z -> asks z db table periods v i b lo hi -> In x (stretches lo hi) ->
  In r (v_rows v) -> r_id r = b -> (wall z (fst x) <= r_stamp r <= wall z (snd x - 1000000000))%Z -> ~ shown_once z (r_stamp r) ->
  forall o, download z db table periods <> Ok o.
Proof.
  intros z db table periods v i b lo hi x r ZW A I J B L N o H. destruct (each_stretch z db table periods v i b lo hi o x A H I) as (n & o1 & o2 & E).
  unfold to_hdf in E. destruct (mapM _ _) as [us|] eqn:M; [|discriminate]. destruct (mapM_each _ _ _ r M) as [u U].
  - unfold query. apply filter_In. split; [exact J|]. cbn [fst snd].
    assert (WH : whole lo /\ whole hi) by (now apply (own_whole z db table periods v i b lo hi ZW A)). destruct WH as [WL WH].
    destruct (stretch_whole lo hi x WL WH I) as (W1 & W2 & _). rewrite !shown_whole; [|apply wall_whole; [exact ZW|apply whole_sub; [exact W2|reflexivity]]|now apply wall_whole].
    destruct L as [L1 L2]. apply Z.leb_le in L1. apply Z.leb_le in L2. apply Z.eqb_eq in B. change sec with 1000000000%Z. now rewrite B, L1, L2.
  - apply N. apply localize_once. now exists u.
Qed.
Lemma feed_known : forall cs n m R f s s' c, keeps f -> feed_columns n m cs (frame f R) s = Ok s' -> In c (metered cs R) -> c = "use"%string \/ exists ty room, kind c = Some (Some ty, room).
Proof.
  induction cs as [|d cs IH]; intros n m R f s s' c K H I; [destruct I|]. cbn [feed_columns] in H. rewrite (has_reading f R d K), ignored_same in H.
  unfold metered in I. cbn [filter] in I. destruct (existsb _ R && negb (ignored d)); [|now apply (IH n m R f s s' c)]. fold (metered cs R) in I.
  destruct (String.eqb d "use") eqn:U.
  - destruct I as [<-|I]; [left; now apply String.eqb_eq|]. now apply (IH _ _ _ _ _ _ c K H).
  - destruct (dget String.eqb feed_mapping d) as [[[ty|] room]|] eqn:M; try discriminate H.
    destruct I as [<-|I]; [right; exists ty, room; now rewrite kind_dget|]. now apply (IH _ _ _ _ _ _ c K H).
Qed.
Lemma unknown_column : forall z db table periods v i b lo hi x c, regular z -> whole_zone z -> whole_rows v -> asks z db table periods v i b lo hi -> In x (stretches lo hi) ->
  In c (metered (v_columns v) (taken z b (fst x) (snd x) (v_rows v))) -> c <> "use"%string -> kind c = None ->
  forall o, download z db table periods <> Ok o.
Proof.
  intros z db table periods v i b lo hi x c R ZW W A I J U N o H. destruct (each_stretch z db table periods v i b lo hi o x A H I) as (n & o1 & o2 & E).
  destruct (own_whole z db table periods v i b lo hi ZW A) as [WL WH]. destruct (stretch_whole lo hi x WL WH I) as (W1 & W2 & _).
  unfold to_hdf in E. destruct (mapM _ _) as [us|] eqn:M; [|discriminate]. cbn [bind] in E. destruct (query_taken z b _ _ _ us R ZW W1 W2 W M) as [C LE].
  rewrite (frame_of us _ table _ C LE) in E. destruct (feed_columns _ _ _ _ _) as [s|] eqn:F; [|discriminate].
  destruct (feed_known _ _ _ _ _ _ _ c (scaled_keeps table) F J) as [Q|(ty & room & Q)]; congruence.
Qed.

(** When it succeeds. *)
Lemma mapping_types : forall c, kind c <> None -> ignored c = true \/ exists ty room, kind c = Some (Some ty, room).
Proof.
  intros c H. assert (G : forallb (fun x => ignored (fst x) || match snd x with (Some _, _) => true | _ => false end) feed_mapping = true) by (vm_compute; reflexivity).
  rewrite forallb_forall in G. unfold kind in *. destruct (find _ feed_mapping) as [[c' [ty room]]|] eqn:E; [|congruence].
  apply find_some in E. destruct E as [I E]. apply String.eqb_eq in E. cbn [fst] in E. subst c'. specialize (G _ I). cbn [fst snd] in G.
  apply Bool.orb_true_iff in G. destruct G as [G|G]; [now left|]. right. destruct ty as [ty|]; [|discriminate]. now exists ty, room.
Qed.
Lemma feed_total : forall cs n m rs s, (forall c, In c cs -> c = "use"%string \/ kind c <> None) -> exists s', feed_columns n m cs rs s = Ok s'.
Proof.
  induction cs as [|c cs IH]; intros n m rs s K; [now exists s|]. cbn [feed_columns].
  assert (K' : forall c, In c cs -> c = "use"%string \/ kind c <> None) by (intros d I; apply K; now right).
  destruct (existsb _ rs && negb (listed c feed_ignore)) eqn:E; [|now apply IH]. destruct (String.eqb c "use") eqn:U; [now apply IH|].
  apply String.eqb_neq in U. destruct (K c (or_introl eq_refl)) as [Q|Q]; [congruence|]. destruct (mapping_types c Q) as [G|(ty & room & G)].
  - rewrite ignored_same, G in E. rewrite Bool.andb_false_r in E. discriminate.
  - rewrite kind_dget in G. rewrite G. now apply IH.
Qed.
Lemma works : forall z db table periods v, In table compatible -> In v (d_views db) -> v_name v = table -> NoDup (map v_name (d_views db)) -> periods <> [] ->
  (forall b s e, In (b, (s, e)) periods -> exists s' e', s = Some s' /\ e = Some e' /\ shown_once z s' /\ shown_once z e') ->
  (forall r, In r (v_rows v) -> shown_once z (r_stamp r)) -> (forall c, In c (v_columns v) -> c = "use"%string \/ kind c <> None) ->
  exists o, download z db table periods = Ok o.
Proof.
  intros z db table periods v C IV NV D NE P RW K. unfold download. rewrite (compatible_in table C). cbn [negb].
  assert (B : buildings db table periods = Ok (map fst periods)) by (unfold buildings; destruct periods; [congruence|reflexivity]). rewrite B. cbn [bind].
  apply fold_ok. intros o b I. unfold one_building. apply fold_ok. intros o1 w _. unfold one_view. destruct (d_span _ _ b) as [[first last]|]; [|now exists o1].
  assert (Q : exists s e, requested z periods b = Ok (Some s, Some e)).
  { unfold requested. destruct (dget Z.eqb periods b) as [[s e]|] eqn:G.
    - rewrite dget_find in G. destruct (find _ periods) as [[b' p]|] eqn:F; [|discriminate]. apply find_some in F. destruct F as [F _]. cbn in G. injection G as ->.
      destruct (P _ _ _ F) as (s' & e' & -> & -> & S1 & S2). apply localize_once in S1. apply localize_once in S2. destruct S1 as [u1 ->], S2 as [u2 ->]. cbn [bind]. now exists u1, u2.
    - exfalso. rewrite dget_find in G. destruct (find _ periods) eqn:F; [discriminate|]. apply in_map_iff in I. destruct I as (x & <- & I).
      apply (find_none _ _ F) in I. rewrite Z.eqb_refl in I. discriminate. }
  destruct Q as (s & e & ->). cbn [bind]. destruct (Z.ltb e s); [now exists o1|]. rewrite chunks_enough. cbn [bind]. apply fold_ok. intros o2 ch _.
  unfold one_chunk. rewrite (found_view db table v IV NV D). unfold to_hdf.
  destruct (mapM_ok (fun r => localize z (r_stamp r)) (query z b (v_rows v) ch)) as [us ->].
  { intros r J. unfold query in J. apply filter_In in J. apply localize_once. now apply RW. }
  cbn [bind]. destruct (feed_total (v_columns v) (S (position b (map fst periods))) 1 (combine us (map (fun r => fun c => scaled table (r_cell r c)) (query z b (v_rows v) ch))) (mkFeeds (o_tables o2) [] [] []) K) as [s' ->].
  cbn [bind]. eexists. reflexivity.
Qed.

(** Without both ends of a period. *)
Lemma sort_in : forall l x, In x (sort_ids l) <-> In x l.
Proof.
  assert (I : forall l x y, In y (insert_id x l) <-> y = x \/ In y l).
  { induction l as [|a l IH]; intros x y; cbn [insert_id].
    - cbn. intuition.
    - destruct (x <? a)%Z; [cbn; intuition|]. destruct (x =? a)%Z eqn:E; [apply Z.eqb_eq in E; subst; cbn; intuition|]. cbn [In]. rewrite IH. intuition. }
  induction l as [|a l IH]; intros x; [reflexivity|]. cbn [sort_ids fold_right]. fold (sort_ids l). rewrite I, IH. cbn. intuition.
Qed.
Lemma fold_fails : forall {A B} (f : B -> A -> res B) (e : exn) l, (forall b x, f b x = Ok b \/ f b x = Err e) -> (exists x, In x l /\ forall b, f b x = Err e) -> forall b, foldM f l b = Err e.
Proof.
  intros A B f e l D. induction l as [|y r IH]; intros (x & I & F) b; [destruct I|]. cbn [foldM]. destruct (D b y) as [E|E]; rewrite E; cbn [bind]; [|reflexivity].
  destruct I as [->|I]; [rewrite F in E; discriminate|]. apply IH. now exists x.
Qed.
Lemma everything : forall z db table v r first last, In table compatible -> In v (d_views db) -> contains (v_name v) table -> In r (v_rows v) ->
  d_span db (per_second table) (r_id r) = Some (first, last) -> download z db table [] = Err TypeError.
Proof.
  intros z db table v r first last C IV CV IR SP. unfold download. rewrite (compatible_in table C). cbn [negb buildings].
  assert (M : In v (matching db table)) by (now apply matching_in).
  assert (B : buildings db table [] = Ok (sort_ids (map r_id (concat (map v_rows (matching db table)))))) by (unfold buildings; destruct (matching db table); [destruct M|reflexivity]).
  unfold buildings in B. rewrite B. cbn [bind]. set (ids := sort_ids _).
  assert (V : forall b o, one_view z db table [] ids b o = if d_span db (per_second table) b then Err TypeError else Ok o).
  { intros b o. unfold one_view. rewrite (span_kind table (compatible_in table C)). destruct (d_span db (per_second table) b) as [[f l]|]; reflexivity. }
  assert (BB : forall o b, one_building z db table [] ids o b = if d_span db (per_second table) b then Err TypeError else Ok o).
  { intros o b. unfold one_building. destruct (d_span db (per_second table) b) as [p|] eqn:E.
    - apply fold_fails; [intros o1 x; rewrite V, E; now right|]. exists v. split; [exact M|]. intros o1. now rewrite V, E.
    - clear B M. clearbody ids. induction (matching db table) as [|w l IH]; [reflexivity|]. cbn [foldM]. rewrite V, E. cbn [bind]. exact IH. }
  apply fold_fails.
  - intros o b. rewrite BB. destruct (d_span _ _ b); auto.
  - exists (r_id r). split; [|intros o; now rewrite BB, SP]. unfold ids. apply sort_in. apply in_map. apply in_concat. exists (v_rows v). split; [now apply in_map|exact IR].
Qed.
Lemma half_open : forall z db table v periods b s e first last, In v (d_views db) -> contains (v_name v) table -> NoDup (map fst periods) -> In (b, (s, e)) periods ->
  d_span db (per_second table) b = Some (first, last) -> s = None \/ e = None -> forall o, download z db table periods <> Ok o.
Proof.
  intros z db table v periods b s e first last IV CV N I SP O o H. destruct (listed table compatible) eqn:C; [|unfold download in H; rewrite C in H; discriminate H].
  unfold download in H. rewrite C in H. cbn [negb] in H. destruct (buildings db table periods) as [ids|] eqn:B; [|discriminate]. cbn [bind] in H.
  assert (ids = map fst periods) as E by (unfold buildings in B; destruct periods; [destruct I|now injection B]).
  assert (J : In b ids) by (rewrite E; apply (in_map fst) in I; exact I).
  destruct (fold_each _ _ _ _ b H J) as (o1 & o2 & H1). unfold one_building in H1.
  destruct (fold_each _ _ _ _ v H1 (proj2 (matching_in db table v) (conj IV CV))) as (o3 & o4 & H2). cbn beta in H2.
  unfold one_view in H2. rewrite (span_kind table C), SP in H2. unfold requested in H2. apply In_nth_error in I. destruct I as [i I]. rewrite (dget_nodup periods i b _ N I) in H2.
  destruct O as [-> | ->]; cbn [bind] in H2.
  - destruct e as [t|]; [destruct (localize z t)|]; discriminate H2.
  - destruct s as [t|]; [destruct (localize z t)|]; discriminate H2.
Qed.

(** The column of every table. *)
Definition active_only (t : list ((nat * nat) * tab)) : Prop := forall x, In x t -> t_column (snd x) = ("power", "active")%string.
Lemma set_active : forall t k nt, t_column nt = ("power", "active")%string -> active_only t -> active_only (dset key_eqb t k nt).
Proof.
  intros t k nt N. induction t as [|[k1 v1] t IH]; intros A x I; cbn [dset] in I.
  - destruct I as [<-|[]]. exact N.
  - destruct (key_eqb k1 k).
    + destruct I as [<-|I]; [exact N|]. apply A. now right.
    + destruct I as [<-|I]; [apply (A (k1, v1)); now left|]. apply IH; auto. intros y J. apply A. now right.
Qed.
Lemma put_active : forall t k rs, active_only t -> active_only (put t k rs).
Proof. intros t k rs A. unfold put. now apply set_active. Qed.
Lemma feed_active : forall cs n m rs s s', feed_columns n m cs rs s = Ok s' -> active_only (f_tables s) -> active_only (f_tables s').
Proof.
  induction cs as [|c cs IH]; intros n m rs s s' H A; cbn [feed_columns] in H; [injection H as <-; exact A|].
  destruct (existsb _ rs && negb _); [|now apply (IH n m rs s)].
  destruct (String.eqb c "use"); [apply IH in H; [exact H|now apply put_active]|].
  destruct (dget String.eqb feed_mapping c) as [[[ty|] room]|]; try discriminate H. apply IH in H; [exact H|now apply put_active].
Qed.
Lemma all_active : forall z db table periods o, download z db table periods = Ok o -> active_only (o_tables o).
Proof.
  intros z db table periods o H. unfold download in H. destruct (negb _); [discriminate|]. destruct (buildings _ _ _) as [ids|]; [|discriminate]. cbn [bind] in H.
  apply (fold_inv (fun o => active_only (o_tables o))) in H; [exact H| |intros x []]. intros o1 b o2 _ H1 A1. unfold one_building in H1.
  apply (fold_inv (fun o => active_only (o_tables o))) in H1; [exact H1| |exact A1]. intros o3 w o4 _ H2 A2. unfold one_view in H2.
  destruct (d_span _ _ b) as [[first last]|]; [|injection H2 as <-; exact A2]. destruct (requested _ _ _) as [[[s|] [e|]]|]; cbn [bind] in H2; try discriminate H2.
  destruct (Z.ltb e s); [injection H2 as <-; exact A2|]. destruct (chunks _ _ _) as [chs|]; [|discriminate]. cbn [bind] in H2.
  apply (fold_inv (fun o => active_only (o_tables o))) in H2; [exact H2| |exact A2]. intros o5 ch o6 _ H3 A3. unfold one_chunk in H3. destruct (find _ _) as [v|]; [|discriminate].
  unfold to_hdf in H3. destruct (mapM _ _) as [us|]; [|discriminate]. cbn [bind] in H3. destruct (feed_columns _ _ _ _ _) as [s'|] eqn:F; [|discriminate]. cbn [bind] in H3. injection H3 as <-.
  cbn [o_tables]. now apply (feed_active _ _ _ _ _ _ F).
Qed.
