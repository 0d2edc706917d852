(** Proofs about windows in local time. *)
From Coq Require Import Lia.
From Verif Require Import Base TimeFrameModel TimeFrameSpec TimeFrameProofs SessionModel StoreModel StoreSpec StoreProofs LocalModel LocalSpec.
Open Scope Z_scope.

Lemma offset_among : forall l o u, In (offset_from o l u) (o :: map snd l).
Proof.
  induction l as [|[t o1] r IH]; intros o u; cbn [offset_from map snd]; [now left|].
  destruct (u <? t); [now left|]. right. apply IH.
Qed.

Lemma candidates : forall z t u, In u (filter (fun u => wall z u =? t) (map (fun o => t - o) (z_first z :: map snd (z_changes z)))) <-> wall z u = t.
Proof.
  intros z t u. rewrite filter_In, Z.eqb_eq. split; [tauto|]. intros W. split; [|exact W].
  apply in_map_iff. exists (offset_from (z_first z) (z_changes z) u). split; [unfold wall in W; lia|apply offset_among].
Qed.
Lemma localize_ok : forall z t u, localize z t = Ok u <-> (forall v, wall z v = t <-> v = u).
Proof.
  intros z t u. unfold localize. set (L := filter _ _).
  assert (C : forall v, In v (nodup Z.eq_dec L) <-> wall z v = t) by (intros v; rewrite nodup_In; apply candidates).
  pose proof (NoDup_nodup Z.eq_dec L) as N. destruct (nodup Z.eq_dec L) as [|x [|y r]].
  - split; [discriminate|]. intros H. exfalso. apply (proj2 (C u)). now apply H.
  - split.
    + intros [= ->] v. rewrite <- C. cbn. intuition.
    + intros H. f_equal. apply H. apply C. now left.
  - split; [discriminate|]. intros H. exfalso. apply NoDup_cons_iff in N. destruct N as [N _]. apply N. left.
    transitivity u; [|symmetry]; apply H, C; [now right; left|now left].
Qed.
Lemma localize_once : forall z t, (exists u, localize z t = Ok u) <-> shown_once z t.
Proof. intros z t. unfold shown_once. split; intros [u H]; exists u; apply localize_ok; exact H. Qed.
Lemma localize_err : forall z t, localize z t = Err GenericException <-> ~ shown_once z t.
Proof.
  intros z t. rewrite <- localize_once. unfold localize. destruct (nodup _ _) as [|x [|y r]]; split; intros H; try reflexivity; try discriminate.
  - intros [u B]. discriminate.
  - destruct H. now exists x.
  - intros [u B]. discriminate.
Qed.

(** Falling back below [a] and climbing past it again. *)
Lemma again : forall r o t o1 u a, regular_from o ((t, o1) :: r) -> t <= u -> u + offset_from o1 r u < a -> a < t + o ->
  exists i, t <= i /\ i + offset_from o1 r i = a.
Proof.
  induction r as [|[t2 o2] r IH]; intros o t o1 u a R T U A; cbn [offset_from] in *.
  - exists (a - o1). lia.
  - destruct R as [(L & D1 & D2) R]. destruct (u <? t2) eqn:E.
    + apply Z.ltb_lt in E. exists (a - o1). assert (B : a - o1 < t2) by lia. apply Z.ltb_lt in B. rewrite B. lia.
    + apply Z.ltb_ge in E. destruct (IH o1 t2 o2 u a R E U) as (i & I & W); [lia|].
      exists i. apply Z.ltb_ge in I. rewrite I. apply Z.ltb_ge in I. lia.
Qed.
Lemma later : forall l o i u, regular_from o l -> i < u -> u + offset_from o l u < i + offset_from o l i ->
  exists j, i < j /\ j + offset_from o l j = i + offset_from o l i.
Proof.
  induction l as [|[t o1] r IH]; intros o i u R L W; cbn [offset_from] in *; [lia|].
  destruct (i <? t) eqn:Ei, (u <? t) eqn:Eu; rewrite ?Z.ltb_lt, ?Z.ltb_ge in *; try lia.
  - destruct (again r o t o1 u (i + o) R Eu W) as (j & J & E); [lia|]. exists j. split; [lia|].
    apply Z.ltb_ge in J. now rewrite J.
  - destruct (IH o1 i u (proj2 R) L W) as (j & J & E). exists j. split; [exact J|].
    assert (B : t <= j) by lia. apply Z.ltb_ge in B. now rewrite B.
Qed.

Lemma starts_up : forall r o t o1 i, regular_from o ((t, o1) :: r) -> t <= i -> t + o1 <= i + offset_from o1 r i.
Proof.
  induction r as [|[t2 o2] r IH]; intros o t o1 i R T; cbn [offset_from]; [lia|]. destruct R as [(L & D1 & D2) R].
  destruct (i <? t2) eqn:E; [lia|]. apply Z.ltb_ge in E. specialize (IH o1 t2 o2 i R E). lia.
Qed.
Lemma before : forall r o t o1 u i, regular_from o ((t, o1) :: r) -> t <= u -> u < i -> i + offset_from o1 r i <= u + offset_from o1 r u ->
  exists j, t <= j /\ j < i /\ j + offset_from o1 r j = i + offset_from o1 r i.
Proof.
  induction r as [|[t2 o2] r IH]; intros o t o1 u i R T L W; cbn [offset_from] in *; [lia|].
  pose proof R as R0. destruct R as [(LL & D1 & D2) R].
  destruct (u <? t2) eqn:Eu, (i <? t2) eqn:Ei; rewrite ?Z.ltb_lt, ?Z.ltb_ge in *; try lia.
  - pose proof (starts_up r o1 t2 o2 i R Ei) as S. exists (i + offset_from o2 r i - o1).
    assert (B : i + offset_from o2 r i - o1 < t2) by lia. apply Z.ltb_lt in B. rewrite B. lia.
  - destruct (IH o1 t2 o2 u i R Eu L W) as (j & J & K & E). exists j. pose proof J as J'. apply Z.ltb_ge in J'. rewrite J'. lia.
Qed.
Lemma earlier : forall l o u i, regular_from o l -> u < i -> i + offset_from o l i <= u + offset_from o l u ->
  exists j, j < i /\ j + offset_from o l j = i + offset_from o l i.
Proof.
  intros [|[t o1] r] o u i R L W; cbn [offset_from] in *; [lia|].
  destruct (u <? t) eqn:Eu, (i <? t) eqn:Ei; rewrite ?Z.ltb_lt, ?Z.ltb_ge in *; try lia.
  - exists (i + offset_from o1 r i - o). assert (B : i + offset_from o1 r i - o < t) by lia. apply Z.ltb_lt in B. rewrite B. lia.
  - destruct (before r o t o1 u i R Eu L W) as (j & J & K & E). exists j. apply Z.ltb_ge in J. rewrite J. lia.
Qed.

Lemma from_on : forall z a i u, regular z -> localize z a = Ok i -> (i <= u <-> a <= wall z u).
Proof.
  intros z a i u R H. pose proof (proj1 (localize_ok z a i) H) as U. assert (E : wall z i = a) by now apply U. unfold wall in *.
  split.
  - intros L. destruct (Z.eq_dec i u) as [<-|N]; [lia|]. destruct (Z_lt_le_dec (u + offset_from (z_first z) (z_changes z) u) a) as [B|]; [|lia].
    destruct (later _ _ i u R) as (j & J & W); [lia|lia|]. assert (j = i) by (apply U; lia). lia.
  - intros L. destruct (Z_lt_le_dec u i) as [B|]; [|lia].
    destruct (earlier _ _ u i R) as (j & J & W); [lia|lia|]. assert (j = i) by (apply U; lia). lia.
Qed.

Lemma window_parts : forall z start end_ w, set_local_window z start end_ = Ok w ->
  tf_enabled w = true /\ tf_empty w = false /\ tf_incl w = false /\
  match start with None => tf_start w = None | Some a => exists i, localize z a = Ok i /\ tf_start w = Some i end /\
  match end_ with None => tf_end w = None | Some b => exists j, localize z b = Ok j /\ tf_end w = Some j end /\
  (forall a b, start = Some a -> end_ = Some b -> a < b).
Proof.
  intros z start end_ w H. unfold set_local_window, set_window, frame_in_zone in H. cbn [negb] in H.
  destruct start as [a|], end_ as [b|]; cbn [option_map stamp_le bind to_instant] in H.
  - destruct (b <=? a) eqn:E; [discriminate|]. apply Z.leb_gt in E.
    destruct (localize z a) as [i|] eqn:LA; [|discriminate]. destruct (localize z b) as [j|] eqn:LB; [|discriminate]. injection H as <-.
    repeat (split; [reflexivity|]). split; [now exists i|]. split; [now exists j|]. now intros ? ? [= <-] [= <-].
  - destruct (localize z a) as [i|] eqn:LA; [|discriminate]. injection H as <-.
    repeat (split; [reflexivity|]). split; [now exists i|]. split; [reflexivity|]. intros; discriminate.
  - destruct (localize z b) as [j|] eqn:LB; [|discriminate]. injection H as <-.
    repeat (split; [reflexivity|]). split; [now exists j|]. intros; discriminate.
  - injection H as <-. repeat (split; [reflexivity|]). intros; discriminate.
Qed.

Lemma selects : forall z start end_ w u, regular z -> set_local_window z start end_ = Ok w -> (inTF w u <-> shows_between z start end_ u).
Proof.
  intros z start end_ w u R H. destruct (window_parts z start end_ w H) as (EN & EM & IN & S & E & _).
  unfold inTF, shows_between. rewrite EM. split.
  - intros (_ & A & B). split.
    + intros a ->. destruct S as (i & L & S). apply (from_on z a i u R L). now apply A.
    + intros b ->. destruct E as (j & L & E). specialize (B j E). destruct (Z_lt_le_dec (wall z u) b) as [|C]; [lia|].
      apply (from_on z b j u R L) in C. lia.
  - intros (A & B). split; [reflexivity|]. split.
    + intros i I. destruct start as [a|]; [|congruence]. destruct S as (i' & L & S). assert (i' = i) as -> by congruence.
      apply (from_on z a i u R L). now apply A.
    + intros j J. destruct end_ as [b|]; [|congruence]. destruct E as (j' & L & E). assert (j' = j) as -> by congruence.
      specialize (B b eq_refl). destruct (Z_lt_le_dec u j) as [|C]; [lia|]. apply (from_on z b j u R L) in C. lia.
Qed.

Lemma works : forall z start end_, (exists w, set_local_window z start end_ = Ok w) <->
  (forall a, start = Some a -> shown_once z a) /\ (forall b, end_ = Some b -> shown_once z b) /\ (forall a b, start = Some a -> end_ = Some b -> a < b).
Proof.
  intros z start end_. split.
  - intros [w H]. destruct (window_parts z start end_ w H) as (_ & _ & _ & S & E & O). split; [|split; [|exact O]].
    + intros a ->. destruct S as (i & L & _). apply localize_once. now exists i.
    + intros b ->. destruct E as (i & L & _). apply localize_once. now exists i.
  - intros (S & E & O). unfold set_local_window, set_window, frame_in_zone. cbn [negb].
    assert (LS : exists i, to_instant (localize z) (option_map Naive start) = Ok i).
    { destruct start as [a|]; [|now exists None]. destruct (proj2 (localize_once z a) (S a eq_refl)) as [i L]. exists (Some i). cbn. now rewrite L. }
    assert (LE : exists i, to_instant (localize z) (option_map Naive end_) = Ok i).
    { destruct end_ as [b|]; [|now exists None]. destruct (proj2 (localize_once z b) (E b eq_refl)) as [i L]. exists (Some i). cbn. now rewrite L. }
    destruct LS as [i LS], LE as [j LE].
    assert (C : match option_map Naive start, option_map Naive end_ with Some s, Some e => stamp_le e s | _, _ => Ok false end = Ok false).
    { destruct start as [a|], end_ as [b|]; cbn; auto. specialize (O a b eq_refl eq_refl). apply Z.leb_gt in O. now rewrite O. }
    rewrite C. cbn [bind]. rewrite LS. cbn [bind]. rewrite LE. cbn [bind]. eexists. reflexivity.
Qed.

Lemma raises : forall z start end_ a, (start = Some a \/ end_ = Some a) -> ~ shown_once z a -> (forall a b, start = Some a -> end_ = Some b -> a < b) ->
  set_local_window z start end_ = Err GenericException.
Proof.
  intros z start end_ a H N O. unfold set_local_window, set_window, frame_in_zone. cbn [negb].
  assert (C : match option_map Naive start, option_map Naive end_ with Some s, Some e => stamp_le e s | _, _ => Ok false end = Ok false).
  { destruct start as [x|], end_ as [b|]; cbn; auto. specialize (O x b eq_refl eq_refl). apply Z.leb_gt in O. now rewrite O. }
  rewrite C. cbn [bind]. apply localize_err in N.
  assert (G : forall t e, localize z t = Err e -> e = GenericException).
  { intros t e. unfold localize. destruct (nodup _ _) as [|x [|y r]]; intros [= <-]; reflexivity. }
  destruct start as [s|]; cbn [option_map to_instant].
  - destruct (localize z s) as [i|e] eqn:LS; cbn [bind]; [|now rewrite (G _ _ LS)].
    destruct H as [[= ->]| ->]; [congruence|]. cbn [option_map to_instant]. now rewrite N.
  - destruct H as [B| ->]; [discriminate|]. cbn [bind option_map to_instant]. now rewrite N.
Qed.

Lemma lasts : forall z a b w i j, set_local_window z (Some a) (Some b) = Ok w -> tf_start w = Some i -> tf_end w = Some j ->
  j - i = (b - a) - ((wall z j - j) - (wall z i - i)).
Proof.
  intros z a b w i j H I J. destruct (window_parts _ _ _ _ H) as (_ & _ & _ & (i' & LI & SI) & (j' & LJ & SJ) & _).
  assert (i' = i) as -> by congruence. assert (j' = j) as -> by congruence.
  assert (wall z i = a) by (now apply (proj1 (localize_ok z a i) LI)). assert (wall z j = b) by (now apply (proj1 (localize_ok z b j) LJ)). lia.
Qed.

Lemma in_order : forall z a b w, regular z -> set_local_window z (Some a) (Some b) = Ok w -> exists i j, tf_start w = Some i /\ tf_end w = Some j /\ i < j.
Proof.
  intros z a b w R H. destruct (window_parts _ _ _ _ H) as (_ & _ & _ & (i & LI & SI) & (j & LJ & SJ) & O).
  exists i, j. split; [exact SI|]. split; [exact SJ|]. specialize (O a b eq_refl eq_refl).
  destruct (Z_lt_le_dec i j) as [|B]; [lia|]. apply (from_on z b j i R LJ) in B.
  assert (wall z i = a) by (now apply (proj1 (localize_ok z a i) LI)). lia.
Qed.

Lemma two_windows : forall z a b c w1 w2 w, regular z ->
  set_local_window z a (Some b) = Ok w1 -> set_local_window z (Some b) c = Ok w2 -> set_local_window z a c = Ok w ->
  forall u, inTF w u <-> (inTF w1 u /\ ~ inTF w2 u) \/ (inTF w2 u /\ ~ inTF w1 u).
Proof.
  intros z a b c w1 w2 w R H1 H2 H u.
  rewrite (selects _ _ _ _ u R H1), (selects _ _ _ _ u R H2), (selects _ _ _ _ u R H). unfold shows_between.
  destruct (window_parts _ _ _ _ H1) as (_ & _ & _ & _ & _ & O1). destruct (window_parts _ _ _ _ H2) as (_ & _ & _ & _ & _ & O2).
  destruct (Z_lt_le_dec (wall z u) b) as [L|L].
  - split.
    + intros [A C]. left. split; [split; [exact A|now intros ? [= <-]]|]. intros [B _]. specialize (B b eq_refl). lia.
    + intros [[[A _] _]|[[B _] _]]; [|specialize (B b eq_refl); lia]. split; [exact A|]. intros d ->. specialize (O2 b d eq_refl eq_refl). lia.
  - split.
    + intros [A C]. right. split; [split; [now intros ? [= <-]|exact C]|]. intros [_ B]. specialize (B b eq_refl). lia.
    + intros [[[_ B] _]|[[_ C] _]]; [specialize (B b eq_refl); lia|]. split; [|exact C]. intros d ->. specialize (O1 d b eq_refl eq_refl). lia.
Qed.

(** ** Loading under a window in local time *)

Lemma with_everything : forall w, tf_empty w = false -> tf_incl w = false -> (forall i j, tf_start w = Some i -> tf_end w = Some j -> i < j) ->
  exists w', intersection w tf_cleared = Ok w' /\ tf_start w' = tf_start w /\ tf_end w' = tf_end w /\ tf_empty w' = false /\ tf_incl w' = false.
Proof.
  intros w EM IN O.
  assert (IS : isect_start w tf_cleared = tf_start w) by reflexivity.
  assert (IE : isect_end w tf_cleared = tf_end w) by reflexivity.
  assert (II : isect_incl w tf_cleared = false).
  { unfold isect_incl. rewrite IE. destruct (oeqb _ _); [reflexivity|]. destruct (oeqb _ _); [exact IN|reflexivity]. }
  destruct (intersection_cases w tf_cleared) as [(Em & _)|[(_ & (s & e & S & E & B) & _)|(_ & _ & H)]].
  - rewrite EM in Em. discriminate.
  - rewrite IS in S. rewrite IE in E. specialize (O s e S E). lia.
  - eexists. split; [exact H|]. rewrite IS, IE, II. repeat (split; [reflexivity|]). reflexivity.
Qed.

Lemma decided : forall z start end_ u, shows_betweenb z start end_ u = true <-> shows_between z start end_ u.
Proof.
  intros z start end_ u. unfold shows_betweenb, shows_between. rewrite Bool.andb_true_iff.
  destruct start as [a|], end_ as [b|]; rewrite ?Z.leb_le, ?Z.ltb_lt; split; intros [A B]; split; try (intros ? [= <-]); try (intros; discriminate); auto.
Qed.

Lemma loads_shown : forall {A} z start end_ w (rows : list (sample A)) n c, regular z -> increasing rows -> (1 <= c)%nat -> set_local_window z start end_ = Ok w ->
  start <> None \/ end_ <> None ->
  let m := filter (fun r => shows_betweenb z start end_ (fst r)) rows in
  (m = [] -> exists ch, hdf_load rows w (default_sections None) n c = ([ch], None) /\ c_rows ch = []) /\
  ((2 <= length m)%nat -> exists cs, hdf_load rows w (default_sections None) n c = (cs, None) /\ delivers cs m c).
Proof.
  intros A z start end_ w rows n c R I C H B m.
  destruct (window_parts z start end_ w H) as (EN & EM & IN & S & E & _).
  assert (O : forall i j, tf_start w = Some i -> tf_end w = Some j -> i < j).
  { intros i j SI SJ. destruct start as [a|]; [|congruence]. destruct end_ as [b|]; [|congruence].
    destruct (in_order z a b w R H) as (i' & j' & SI' & SJ' & L). congruence. }
  destruct (with_everything w EM IN O) as (w' & HI & S' & E' & EM' & IN').
  assert (M : rows_of_period w' rows m).
  { apply rows_of_period_filter. unfold m. apply filter_ext_in. intros r _. apply Bool.eq_iff_eq_true.
    rewrite decided, inTFcb_spec, <- (selects z start end_ w (fst r) R H). unfold inTF, inTFc. rewrite S', E', EM, EM', IN'.
    split; intros (_ & X & Y); (split; [reflexivity|]); (split; [exact X|]).
    - intros e X'. left. now apply Y.
    - intros e X'. destruct (Y e X') as [|[F _]]; [assumption|discriminate]. }
  assert (NB : tf_start w' <> None \/ tf_end w' <> None).
  { rewrite S', E'. destruct start as [a|]; [left; destruct S as (? & _ & ->); discriminate|]. destruct end_ as [b|]; [|tauto]. right. destruct E as (? & _ & ->). discriminate. }
  destruct (section_bounded rows w tf_cleared w' m n c I C HI EM' NB M) as (P0 & _ & P2).
  cbn [default_sections hdf_load]. split.
  - intros N. rewrite (P0 N). cbn. eexists. split; reflexivity.
  - intros N. destruct (P2 N) as (cs & L & D & _). rewrite L. cbn. exists cs. rewrite app_nil_r. split; [reflexivity|exact D].
Qed.
