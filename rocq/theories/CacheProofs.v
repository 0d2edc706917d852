From Coq Require Import Sorted Permutation Lia Bool.
From Verif Require Import Base TimeFrameModel TimeFrameSpec SortLib StoreModel StoreSpec ResultsModel ResultsSpec ResultsProofs EnergyModel KeyModel CacheModel CacheSpec.
Import List.
Open Scope list_scope.
Open Scope Z_scope.

Lemma oeqb_iff a b : oeqb a b = true <-> a = b.
Proof. destruct a, b; cbn; try (split; congruence). rewrite Z.eqb_eq. split; congruence. Qed.
Lemma bounded_same t s e u : bounded t s e -> is_bounded u -> (tf_same t u = true <-> tf_start u = Some s /\ tf_end u = Some e).
Proof.
  intros (A & B & C & _) (s' & e' & A' & B' & C' & _). unfold tf_same. rewrite !andb_true_iff, !oeqb_iff, A, B, C, C', A', B'. cbn. intuition congruence.
Qed.
Lemma row_tf_bounded {A} (r : row A) s e : r_start r = Some s -> r_end r = Some e -> s < e -> exists t, row_tf r = Ok t /\ bounded t s e.
Proof.
  intros S E L. unfold row_tf, mk. rewrite S, E. cbn. replace (e <=? s) with false by lia. eexists. split; [reflexivity|]. repeat split. exact L.
Qed.

(** Rows about sections. *)
Section Rows.
  Context {A : Type}.
  Variable sections : list tf.
  Hypothesis NO : no_overlap sections.
  Definition about (r : row A) : Prop := exists t s e, In t sections /\ bounded t s e /\ r_start r = Some s /\ r_end r = Some e.
  Lemma about_ordered r : about r -> row_ordered r.
  Proof. intros (t & s & e & _ & (_ & _ & _ & L) & S & E) s' e' S' E'. congruence. Qed.
  Lemma about_covers r t s e i : bounded t s e -> r_start r = Some s -> r_end r = Some e -> (@row_covers A r i <-> inTF t i).
  Proof. intros (S' & E' & N & _) S E. unfold row_covers, inTF. rewrite S, E, S', E'. intuition. Qed.
  Lemma about_meet r q i : about r -> about q -> row_covers r i -> row_covers q i -> period r = period q.
  Proof.
    intros (t & s & e & I & B & S & E) (t' & s' & e' & I' & B' & S' & E') C C'. apply (about_covers r t s e i B S E) in C. apply (about_covers q t' s' e' i B' S' E') in C'.
    apply In_nth_error in I, I'. destruct I as (j & J), I' as (k & K). assert (X := NO j k t t' i J K C C'). subst k. assert (t = t') by congruence. subst t'. destruct B as (X1 & X2 & _), B' as (Y1 & Y2 & _). unfold period. congruence.
  Qed.
  Lemma about_disjoint (d : table A) : Forall about d -> NoDup (map period d) -> rows_disjoint d.
  Proof.
    intros F ND j k r q i J K C C'. rewrite Forall_forall in F. assert (E := about_meet r q i (F r (nth_error_In _ _ J)) (F q (nth_error_In _ _ K)) C C').
    apply (proj1 (NoDup_nth_error (map period d)) ND).
    - rewrite map_length. apply nth_error_Some. congruence.
    - rewrite !nth_error_map, J, K. cbn. congruence.
  Qed.
  Lemma about_starts (d : table A) : Forall about d -> NoDup (map period d) -> NoDup (map r_start d).
  Proof. intros F ND. apply (disjoint_unique d); [eapply Forall_impl; [|exact F]; apply about_ordered|apply about_disjoint; assumption]. Qed.
  Lemma period_of r q : about r -> about q -> r_start r = r_start q -> period r = period q.
  Proof.
    intros R Q E. destruct (same_start_meet r q (about_ordered r R) (about_ordered q Q) E) as (i & C & C'). apply (about_meet r q i R Q C C').
  Qed.
End Rows.

Lemma nodup_app {A} (l l' : list A) : NoDup l -> NoDup l' -> (forall x, In x l -> In x l' -> False) -> NoDup (l ++ l').
Proof. intros N N' D. induction N as [|x l I N IH]; [exact N'|]. cbn. constructor; [|apply IH; intros y Y; apply D; right; exact Y]. rewrite in_app_iff. intros [H|H]; [contradiction|]. apply (D x); [left; reflexivity|exact H]. Qed.
Lemma nodup_perm_map {A B} (f : A -> B) l l' : Permutation l l' -> NoDup (map f l) -> NoDup (map f l').
Proof. intros P N. eapply Permutation_NoDup; [apply Permutation_map, P|exact N]. Qed.
Lemma unique_in l t : In t (unique l) -> In t l.
Proof. induction l as [|u l IH]; [intros []|]. cbn. intros [<-|H]; [left; reflexivity|]. apply filter_In in H. right. apply IH, H. Qed.
Lemma unique_all l : Forall is_bounded l -> forall t s e, In t l -> bounded t s e -> exists u, In u (unique l) /\ bounded u s e.
Proof.
  induction 1 as [|u l B F IH]; intros t s e I BT; [destruct I|]. cbn. destruct I as [<-|I]; [exists u; split; [left; reflexivity|exact BT]|]. destruct (IH t s e I BT) as (w & W & BW). destruct (tf_same u w) eqn:E.
  - destruct B as (s' & e' & B). apply (bounded_same u s' e' w B ltac:(exists s, e; exact BW)) in E. exists u. split; [left; reflexivity|]. destruct BW as (X & Y & _). destruct E. assert (s' = s) by congruence. assert (e' = e) by congruence. subst. exact B.
  - exists w. split; [right; apply filter_In; split; [exact W|rewrite E; reflexivity]|exact BW].
Qed.
Definition tperiod (t : tf) : option Z * option Z := (tf_start t, tf_end t).
Lemma filter_nodup {A B} (f : A -> B) g l : NoDup (map f l) -> NoDup (map f (filter g l)).
Proof. induction l as [|x l IH]; intros N; [constructor|]. cbn in *. inversion_clear N as [|? ? N1 N2]. destruct (g x); [|apply IH, N2]. cbn. constructor; [|apply IH, N2]. intros I. apply N1. apply in_map_iff in I. destruct I as (y & E & I). apply filter_In in I. rewrite <- E. apply in_map, I. Qed.
Lemma unique_nodup l : Forall is_bounded l -> NoDup (map tperiod (unique l)).
Proof.
  induction 1 as [|u l B F IH]; [constructor|]. cbn. constructor.
  - intros I. apply in_map_iff in I. destruct I as (w & E & I). apply filter_In in I. destruct I as [I N]. assert (BW : is_bounded w) by (rewrite Forall_forall in F; apply F, unique_in, I). destruct B as (s & e & B). assert (X : tf_same u w = true) by (apply (bounded_same u s e w B BW); destruct B as (X & Y & _); unfold tperiod in E; split; congruence). rewrite X in N. discriminate.
  - apply filter_nodup, IH.
Qed.

Lemma period_dec (a b : option Z * option Z) : {a = b} + {a <> b}.
Proof. repeat decide equality. Qed.

Section History.
  Context {A : Type} (sc : stat_class A) (chunks : tf -> list (tf * A)) (ok : tf -> Prop) (stat : Z -> Z -> option A) (same : A -> A -> Prop).
  Hypothesis OKB : forall t, ok t -> is_bounded t.
  Hypothesis WH : whole ok chunks stat.
  Hypothesis EQ : equivalence same.
  Variable ac : list actype.
  Hypothesis SV : storable sc stat same ac.

  Notation true_row := (true_row stat same).
  Lemma FA t : Forall true_row t -> equivalent_tables same t (sc_export sc t).
  Proof. intros F. apply SV, F. Qed.
  Definition good_cache (c : table A) : Prop := Forall true_row c /\ NoDup (map period c).

  Lemma rows_of_chunks l : Forall ok l -> NoDup (map tperiod l) ->
    Forall (fun p => usable (fst p)) (flat_map chunks l) /\ (forall r, In r (map row_of (flat_map chunks l)) <-> exists t s e v, In t l /\ bounded t s e /\ stat s e = Some v /\ r = mkRow (Some s) (Some e) v) /\ NoDup (map period (map row_of (flat_map chunks l))).
  Proof.
    induction 1 as [|t l IN F IH]; intros ND; [split; [constructor|]; split; [|constructor]; intros r; split; [intros []|intros (t & s & e & v & [] & _)]|].
    cbn [map] in ND. inversion_clear ND as [|? ? N1 N2]. destruct (IH N2) as (U & C & D). cbn [flat_map]. destruct (OKB t IN) as (s & e & B). assert (W := WH t s e IN B). assert (B' := B). destruct B' as (S & E & NE & L).
    assert (HD : forall s' e', bounded t s' e' -> s' = s /\ e' = e) by (intros s' e' (X & Y & _); split; congruence).
    destruct (stat s e) as [v|] eqn:ST; [destruct W as (u & -> & BU); destruct BU as (SU & EU & NU & _)|rewrite W]; cbn [app map].
    - split; [|split].
      + constructor; [|exact U]. cbn. split; [exact NU|]. intros s' e' X Y. congruence.
      + intros r. cbn [In]. rewrite C. split.
        * intros [E'|(t' & s' & e' & v' & I & R)]; [exists t, s, e, v; split; [left; reflexivity|]; split; [exact B|]; split; [exact ST|]; unfold row_of in E'; cbn in E'; congruence|exists t', s', e', v'; split; [right; exact I|exact R]].
        * intros (t' & s' & e' & v' & [<-|I] & B' & ST' & ->); [left; unfold row_of; cbn; destruct (HD s' e' B'); subst; congruence|right; exists t', s', e', v'; auto].
      + constructor; [|exact D]. intros I. apply N1. apply in_map_iff in I. destruct I as (r & E' & I). apply C in I. destruct I as (t' & s' & e' & v' & I & (X & Y & _) & _ & ->). unfold period, row_of in E'. cbn in E'. apply in_map_iff. exists t'. split; [|exact I]. unfold tperiod. congruence.
    - split; [exact U|]. split; [|exact D]. intros r. rewrite C. split.
      + intros (t' & s' & e' & v' & I & R). exists t', s', e', v'. split; [right; exact I|exact R].
      + intros (t' & s' & e' & v' & [<-|I] & B' & ST' & ->); [destruct (HD s' e' B'); subst; congruence|exists t', s', e', v'; auto].
  Qed.
  Lemma compute_thm sections l : proper_request ok sections -> Forall ok l -> NoDup (map tperiod l) -> (forall t, In t l -> In t sections) ->
    exists d, compute_stat chunks l = Ok d /\ Permutation d (map row_of (flat_map chunks l)) /\ sorted_by_start d.
  Proof.
    intros PR F ND SUB. destruct (rows_of_chunks l F ND) as (U & C & D).
    destruct (append_all_outcome (flat_map chunks l) [] U) as (d & E & PM & S); [constructor|constructor| |exists d; rewrite app_nil_r in PM; auto].
    rewrite app_nil_r. apply (about_disjoint sections (proj2 PR)); [|exact D]. rewrite Forall_forall. intros r R. apply C in R. destruct R as (t & s & e & v & I & B & _ & ->). exists t, s, e. auto.
  Qed.
  Lemma cached_in (cache : table A) t s e r : bounded t s e -> (In r (cached_rows cache t) <-> In r cache /\ r_start r = Some s /\ r_end r = Some e).
  Proof.
    intros (S & E & _). unfold cached_rows. rewrite S, E, filter_In, rows_at_in. destruct (r_end r) as [x|]; [rewrite Z.eqb_eq|]; intuition congruence.
  Qed.
  Lemma cached_nodup (cache : table A) t s e : bounded t s e -> NoDup (map period cache) -> NoDup (map period (cached_rows cache t)).
  Proof. intros (S & E & _) N. unfold cached_rows. rewrite S. apply filter_nodup. unfold rows_at. apply filter_nodup, N. Qed.
  Lemma import_in (cache : table A) sections r : Forall is_bounded sections -> (In r (results_import [] cache sections) <-> In r cache /\ exists t s e, In t sections /\ bounded t s e /\ r_start r = Some s /\ r_end r = Some e).
  Proof.
    intros F. assert (X : In r (sort_by r_start (flat_map (cached_rows cache) sections)) <-> In r cache /\ exists t s e, In t sections /\ bounded t s e /\ r_start r = Some s /\ r_end r = Some e).
    { split.
      - intros H. apply (Permutation_in _ (sort_by_perm r_start _)) in H. apply in_flat_map in H. destruct H as (t & I & H). rewrite Forall_forall in F. destruct (F t I) as (s & e & B). apply (cached_in cache t s e r B) in H. split; [tauto|]. exists t, s, e. tauto.
      - intros (I & t & s & e & IT & B & S & E). apply (Permutation_in _ (Permutation_sym (sort_by_perm r_start _))). apply in_flat_map. exists t. split; [exact IT|]. apply (cached_in cache t s e r B). auto. }
    unfold results_import. destruct cache as [|c cache]; [|exact X]. split; [intros []|intros [[] _]].
  Qed.
  Lemma import_sorted (cache : table A) sections : sorted_by_start (results_import [] cache sections).
  Proof. unfold results_import. destruct cache; [constructor|]. apply kle_start, sort_by_sorted. Qed.
  Lemma proper_nodup sections : Forall is_bounded sections -> no_overlap sections -> NoDup (map tperiod sections).
  Proof.
    intros F N. apply NoDup_nth_error. intros j k L E. rewrite map_length in L. rewrite !nth_error_map in E. destruct (nth_error sections j) as [t|] eqn:J; [|apply nth_error_None in J; lia]. destruct (nth_error sections k) as [u|] eqn:K; [|discriminate]. cbn in E. rewrite Forall_forall in F. destruct (F t (nth_error_In _ _ J)) as (s & e & S & EE & NE & L'). destruct (F u (nth_error_In _ _ K)) as (s' & e' & S' & E' & NE' & _). unfold tperiod in E. assert (s' = s) by congruence. assert (e' = e) by congruence. subst s' e'.
    apply (N j k t u s J K).
    - split; [exact NE|]. split; [intros x X; assert (x = s) by congruence; lia|intros x X; assert (x = e) by congruence; lia].
    - split; [exact NE'|]. split; [intros x X; assert (x = s) by congruence; lia|intros x X; assert (x = e) by congruence; lia].
  Qed.
  Lemma import_nodup (cache : table A) sections : Forall is_bounded sections -> NoDup (map tperiod sections) -> NoDup (map period cache) -> NoDup (map period (results_import [] cache sections)).
  Proof.
    intros F NS NC. assert (X : NoDup (map period (flat_map (cached_rows cache) sections))).
    { induction F as [|t l (s & e & B) F IH]; [constructor|]. cbn [map] in NS. inversion_clear NS as [|? ? N1 N2]. cbn [flat_map]. rewrite map_app. apply nodup_app; [apply (cached_nodup cache t s e B NC)|apply IH, N2|].
      intros p I1 I2. apply N1. apply in_map_iff in I1, I2. destruct I1 as (r & <- & R), I2 as (q & E & Q). apply (cached_in cache t s e r B) in R. apply in_flat_map in Q. destruct Q as (u & U & Q). rewrite Forall_forall in F. destruct (F u U) as (s' & e' & B'). apply (cached_in cache u s' e' q B') in Q. apply in_map_iff. exists u. split; [|exact U]. destruct B as (X1 & X2 & _), B' as (Y1 & Y2 & _), R as (_ & R1 & R2), Q as (_ & Q1 & Q2). unfold tperiod, period in *. congruence. }
    unfold results_import. destruct cache; [constructor|]. eapply nodup_perm_map; [symmetry; apply sort_by_perm|exact X].
  Qed.
  Lemma rows_tfs (d : table A) : Forall (fun r => exists s e, r_start r = Some s /\ r_end r = Some e /\ s < e) d ->
    exists l, results_timeframes d = Ok l /\ Forall2 (fun r t => exists s e, r_start r = Some s /\ r_end r = Some e /\ bounded t s e) d l.
  Proof.
    induction 1 as [|r d (s & e & S & E & L) F IH]; [exists []; split; [reflexivity|constructor]|]. destruct IH as (l & E' & F2). destruct (row_tf_bounded r s e S E L) as (t & ET & B). exists (t :: l). unfold results_timeframes in *. cbn [mapM]. rewrite ET. cbn [bind]. rewrite E'. cbn. split; [reflexivity|]. constructor; [exists s, e; auto|exact F2].
  Qed.
  Lemma missing_spec sections (d : table A) done : Forall is_bounded sections -> Forall2 (fun r t => exists s e, r_start r = Some s /\ r_end r = Some e /\ bounded t s e) d done ->
    Forall is_bounded (missing sections done) /\ NoDup (map tperiod (missing sections done)) /\ (forall t, In t (missing sections done) -> In t sections) /\
    forall s e, (exists t, In t (missing sections done) /\ bounded t s e) <-> (exists t, In t sections /\ bounded t s e) /\ ~ In (Some s, Some e) (map period d).
  Proof.
    intros F F2. unfold missing. set (l := filter _ _). assert (PM := sort_by_perm tf_start l).
    assert (IN : forall t, In t l -> In t sections) by (intros t I; apply filter_In in I; apply unique_in, I).
    assert (FB : Forall is_bounded l) by (rewrite Forall_forall in *; intros t I; apply F, IN, I).
    assert (DONE : forall t s e, bounded t s e -> (existsb (tf_same t) done = true <-> In (Some s, Some e) (map period d))).
    { intros t s e B. rewrite existsb_exists. split.
      - intros (u & U & E). assert (X : exists r, In r d /\ exists s e, r_start r = Some s /\ r_end r = Some e /\ bounded u s e) by (clear - F2 U; induction F2 as [|r t d l H F2 IH]; [destruct U|destruct U as [<-|U]; [exists r; split; [left; reflexivity|exact H]|destruct (IH U) as (q & Q & R); exists q; split; [right; exact Q|exact R]]]).
        destruct X as (r & R & s' & e' & RS & RE & BU). apply (bounded_same t s e u B) in E; [|exists s', e'; exact BU]. apply in_map_iff. exists r. split; [|exact R]. destruct BU as (X & Y & _). unfold period. destruct E. congruence.
      - intros I. apply in_map_iff in I. destruct I as (r & E & R). assert (X : exists u, In u done /\ exists s e, r_start r = Some s /\ r_end r = Some e /\ bounded u s e) by (clear - F2 R; induction F2 as [|q t d l H F2 IH]; [destruct R|destruct R as [->|R]; [exists t; split; [left; reflexivity|exact H]|destruct (IH R) as (u & U & X); exists u; split; [right; exact U|exact X]]]).
        destruct X as (u & U & s' & e' & RS & RE & BU). exists u. split; [exact U|]. apply (bounded_same t s e u B); [exists s', e'; exact BU|]. destruct BU as (X & Y & _). unfold period in E. split; congruence. }
    split; [eapply Permutation_Forall; [symmetry; exact PM|exact FB]|]. split; [eapply nodup_perm_map; [symmetry; exact PM|apply filter_nodup, unique_nodup, F]|]. split; [intros t I; apply IN; eapply Permutation_in; [exact PM|exact I]|].
    intros s e. split.
    - intros (t & I & B). apply (Permutation_in _ PM) in I. split; [exists t; split; [apply IN, I|exact B]|]. apply filter_In in I. destruct I as [_ N]. intros C. apply (DONE t s e B) in C. rewrite C in N. discriminate.
    - intros ((t & I & B) & N). destruct (unique_all sections F t s e I B) as (u & U & BU). exists u. split; [|exact BU]. apply (Permutation_in _ (Permutation_sym PM)). apply filter_In. split; [exact U|]. destruct (existsb (tf_same u) done) eqn:E; [|reflexivity]. apply (DONE u s e BU) in E. contradiction.
  Qed.

  Notation answer := (answer stat same).
  Lemma answer_about sections d : answer sections d -> Forall (about sections) d.
  Proof.
    intros (_ & _ & T & C). rewrite Forall_forall in *. intros r R. destruct (T r R) as (s & e & v & S & E & L & ST & _). assert (I : In (Some s, Some e) (map period d)) by (apply in_map_iff; exists r; split; [unfold period; congruence|exact R]). apply C in I. destruct I as [(t & IT & B) _]. exists t, s, e. auto.
  Qed.
  Lemma equivalent_periods (t u : table A) : equivalent_tables same t u -> map period t = map period u.
  Proof. induction 1 as [|r q t u (S & E & _) F IH]; [reflexivity|]. cbn. rewrite IH. unfold period. congruence. Qed.
  Lemma equivalent_true (t u : table A) : equivalent_tables same t u -> Forall true_row t -> Forall true_row u.
  Proof.
    induction 1 as [|r q t u (S & E & V) F IH]; intros H; [constructor|]. apply Forall_cons_iff in H. destruct H as [(s & e & v & X1 & X2 & X3 & X4 & X5) H']. constructor; [|apply IH, H']. exists s, e, v. destruct EQ as (_ & SY & TR). split; [congruence|]. split; [congruence|]. split; [exact X3|]. split; [exact X4|]. eapply TR; [apply SY; exact V|exact X5].
  Qed.
  Lemma answers_equal sections d d' : no_overlap sections -> answer sections d -> answer sections d' -> equivalent_tables same d d'.
  Proof.
    intros PR AN AN'. assert (AB := answer_about sections d AN). assert (AB' := answer_about sections d' AN'). destruct AN as (S & ND & T & C), AN' as (S' & ND' & T' & C').
    assert (MP : map period d = map period d').
    { apply (sorted_unique (fun p : option Z * option Z => fst p)).
      - clear - S. apply kle_start in S. induction S as [|r d S IH F]; cbn; constructor; [exact IH|]. rewrite Forall_forall in *. intros p I. apply in_map_iff in I. destruct I as (q & <- & Q). apply (F q Q).
      - clear - S'. apply kle_start in S'. induction S' as [|r d S IH F]; cbn; constructor; [exact IH|]. rewrite Forall_forall in *. intros p I. apply in_map_iff in I. destruct I as (q & <- & Q). apply (F q Q).
      - apply NoDup_Permutation; [exact ND|exact ND'|]. intros p. assert (X : forall d : table A, Forall true_row d -> In p (map period d) -> exists s e, p = (Some s, Some e)) by (intros x TX I; apply in_map_iff in I; destruct I as (r & <- & R); rewrite Forall_forall in TX; destruct (TX r R) as (s & e & v & RS & RE & _); exists s, e; unfold period; congruence).
        split; intros I; [destruct (X d T I) as (s & e & ->); apply C', C, I|destruct (X d' T' I) as (s & e & ->); apply C, C', I].
      - rewrite map_map. apply (about_starts sections PR d AB ND). }
    clear - MP T T' EQ. revert d' MP T'. induction d as [|r d IH]; intros d' MP T'; destruct d' as [|q d']; try discriminate; [constructor|]. cbn in MP. injection MP as E1 E2 MP. apply Forall_cons_iff in T, T'. destruct T as [(s & e & v & X1 & X2 & _ & X3 & X4) T1], T' as [(s' & e' & v' & Y1 & Y2 & _ & Y3 & Y4) T2]. constructor; [|apply IH; assumption]. split; [exact E1|]. split; [exact E2|]. assert (s' = s) by congruence. assert (e' = e) by congruence. subst. assert (v' = v) by congruence. subst. destruct EQ as (_ & SY & TR). eapply TR; [exact X4|apply SY, Y4].
  Qed.
  Lemma true_ends d : Forall true_row d -> Forall (fun r => exists s e, r_start r = Some s /\ r_end r = Some e /\ s < e) d.
  Proof. apply Forall_impl. intros r (s & e & v & S & E & L & _). eauto. Qed.
  Lemma filter_bounded sections : Forall is_bounded sections -> filter (fun s => negb (tf_empty s)) sections = sections.
  Proof. induction 1 as [|t l (s & e & _ & _ & N & _) F IH]; [reflexivity|]. cbn. rewrite N. cbn. rewrite IH. reflexivity. Qed.

  Lemma get_stat_thm sections cache : proper_request ok sections -> good_cache cache ->
    exists d cache', get_stat sc chunks ac sections cache = (Ok d, cache') /\ answer sections d /\ good_cache cache'.
  Proof.
    intros PR [TC NC]. assert (PI := proj1 PR). assert (PB : Forall is_bounded sections) by (eapply Forall_impl; [|exact PI]; intros t X; apply OKB, X). assert (NS := proper_nodup sections PB (proj2 PR)). unfold get_stat. rewrite (filter_bounded sections PB). set (imported := results_import [] cache sections).
    assert (TI : Forall true_row imported) by (rewrite Forall_forall; intros r R; rewrite Forall_forall in TC; apply TC; apply (import_in cache sections r PB) in R; tauto).
    assert (NI : NoDup (map period imported)) by (apply import_nodup; assumption).
    assert (SI : sorted_by_start imported) by apply import_sorted.
    assert (CI : forall s e, In (Some s, Some e) (map period imported) <-> In (Some s, Some e) (map period cache) /\ exists t, In t sections /\ bounded t s e).
    { intros s e. rewrite !in_map_iff. split.
      - intros (r & E & R). apply (import_in cache sections r PB) in R. destruct R as (R & t & s' & e' & I & B & S' & E'). unfold period in E. split; [exists r; auto|]. exists t. assert (s' = s) by congruence. assert (e' = e) by congruence. subst. auto.
      - intros ((r & E & R) & t & I & B). exists r. split; [exact E|]. apply (import_in cache sections r PB). split; [exact R|]. exists t, s, e. unfold period in E. split; [exact I|]. split; [exact B|]. split; congruence. }
    destruct (rows_tfs imported (true_ends _ TI)) as (done & -> & F2).
    assert (TODO : exists todo, match sc_keys sc imported with
                   | Some ks => if forallb (fun a => ac_in a ks) ac then (imported, missing sections done) else ([], sections)
                   | None => (imported, missing sections done)
                   end = (imported, todo) /\ Forall is_bounded todo /\ NoDup (map tperiod todo) /\ (forall t, In t todo -> In t sections) /\
                   forall s e, (exists t, In t todo /\ bounded t s e) <-> (exists t, In t sections /\ bounded t s e) /\ ~ In (Some s, Some e) (map period imported)).
    { destruct (sc_keys sc imported) as [ks|] eqn:K; [|exists (missing sections done); split; [reflexivity|apply missing_spec; assumption]].
      destruct (forallb (fun a => ac_in a ks) ac) eqn:FK; [exists (missing sections done); split; [reflexivity|apply missing_spec; assumption]|].
      assert (EI : imported = []).
      { assert (HK := proj2 (SV imported TI)). destruct imported as [|r0 im]; [reflexivity|]. exfalso. specialize (HK ltac:(discriminate) ks K). assert (X : forallb (fun a => ac_in a ks) ac = true); [|congruence]. apply forallb_forall. intros a I. unfold ac_in. apply existsb_exists. exists a. split; [apply HK, I|destruct a; reflexivity]. }
      rewrite EI. exists sections. split; [reflexivity|]. split; [exact PB|]. split; [exact NS|]. split; [auto|]. intros s e. cbn. tauto. }
    destruct TODO as (todo0 & -> & MB & MN & MS & MC).
    assert (STAT : forall s e, In (Some s, Some e) (map period imported) -> stat s e <> None).
    { intros s e I. apply in_map_iff in I. destruct I as (r & E & R). rewrite Forall_forall in TI. destruct (TI r R) as (s' & e' & v & S' & E' & _ & ST & _). unfold period in E. assert (s' = s) by congruence. assert (e' = e) by congruence. subst. congruence. }
    destruct todo0 as [|m ms].
    - exists imported, cache. split; [reflexivity|]. split; [|split; assumption]. split; [exact SI|]. split; [exact NI|]. split; [exact TI|]. intros s e. split.
      + intros I. split; [apply CI, I|apply STAT, I].
      + intros [X _]. destruct (in_dec period_dec (Some s, Some e) (map period imported)) as [Y|Y]; [exact Y|]. destruct (proj2 (MC s e) (conj X Y)) as (t & [] & _).
    - set (todo := m :: ms) in *. clearbody todo. assert (MI : Forall ok todo) by (rewrite Forall_forall in *; intros t I; apply PI, MS, I). destruct (compute_thm sections todo PR MI MN MS) as (computed & -> & PM & SD). destruct (rows_of_chunks todo MI MN) as (_ & C & D).
      assert (TD : Forall true_row computed).
      { rewrite Forall_forall. intros r R. apply (Permutation_in _ PM) in R. apply C in R. destruct R as (t & s & e & v & _ & B & ST & ->). exists s, e, v. destruct B as (_ & _ & _ & L). split; [reflexivity|]. split; [reflexivity|]. split; [exact L|]. split; [exact ST|]. apply (proj1 EQ). }
      assert (ND : NoDup (map period computed)) by (eapply nodup_perm_map; [symmetry; exact PM|exact D]).
      assert (CD : forall s e, In (Some s, Some e) (map period computed) <-> (exists t, In t todo /\ bounded t s e) /\ stat s e <> None).
      { intros s e. rewrite in_map_iff. split.
        - intros (r & E & R). apply (Permutation_in _ PM) in R. apply C in R. destruct R as (t & s' & e' & v & I & B & ST & ->). unfold period in E. cbn in E. assert (s' = s) by congruence. assert (e' = e) by congruence. subst. split; [exists t; auto|congruence].
        - intros ((t & I & B) & ST). destruct (stat s e) as [v|] eqn:X; [|congruence]. exists (mkRow (Some s) (Some e) v). split; [reflexivity|]. apply (Permutation_in _ (Permutation_sym PM)), C. exists t, s, e, v. auto. }
      assert (ALL : NoDup (map period (imported ++ computed))).
      { rewrite map_app. apply nodup_app; [exact NI|exact ND|]. intros p I1 I2. assert (X : exists s e, p = (Some s, Some e)) by (apply in_map_iff in I1; destruct I1 as (r & <- & R); rewrite Forall_forall in TI; destruct (TI r R) as (s & e & v & RS & RE & _); exists s, e; unfold period; congruence). destruct X as (s & e & ->). apply CD in I2. destruct I2 as [X _]. apply MC in X. destruct X as [_ X]. contradiction. }
      assert (TA : Forall true_row (imported ++ computed)) by (apply Forall_app; split; assumption).
      assert (CA : forall s e, In (Some s, Some e) (map period (imported ++ computed)) <-> (exists t, In t sections /\ bounded t s e) /\ stat s e <> None).
      { intros s e. rewrite map_app, in_app_iff, CD. split.
        - intros [I|[X Y]]; [split; [apply CI, I|apply STAT, I]|]. split; [apply MC, X|exact Y].
        - intros [X Y]. destruct (in_dec period_dec (Some s, Some e) (map period imported)) as [Z|Z]; [left; exact Z|right; split; [apply MC; split; assumption|exact Y]]. }
      assert (UP : exists d, results_update imported computed = (d, None) /\ answer sections d).
      { destruct computed as [|r0 computed0] eqn:EC.
        - exists imported. split; [reflexivity|]. rewrite app_nil_r in *. split; [exact SI|]. auto.
        - rewrite <- EC in *. destruct (update_outcome imported computed ltac:(congruence)) as (d & P & S & O).
          assert (AB : Forall (about sections) (imported ++ computed)).
          { rewrite Forall_forall in *. intros r R. destruct (TA r R) as (s & e & v & RS & RE & L & ST & _). assert (I : In (Some s, Some e) (map period (imported ++ computed))) by (apply in_map_iff; exists r; split; [unfold period; congruence|exact R]). apply CA in I. destruct I as [(t & IT & B) _]. exists t, s, e. auto. }
          destruct O as [(E & _)|(_ & [X|X])].
          + exists d. split; [exact E|]. split; [exact S|]. split; [eapply nodup_perm_map; [symmetry; exact P|exact ALL]|]. split; [eapply Permutation_Forall; [symmetry; exact P|exact TA]|]. intros s e. rewrite <- CA. split; intros I; (eapply Permutation_in; [|exact I]); [apply Permutation_map, P|apply Permutation_map; symmetry; exact P].
          + exfalso. apply X. apply (about_disjoint sections (proj2 PR)); assumption.
          + exfalso. apply X. eapply Forall_impl; [|exact AB]. apply about_ordered. }
      destruct UP as (d & -> & AN).
      assert (GC : good_cache (if match cache with [] => true | _ :: _ => sc_compat sc cache (sc_export sc computed) end then cache ++ sc_export sc computed else sc_export sc d)).
      { destruct (match cache with [] => true | _ :: _ => sc_compat sc cache (sc_export sc computed) end).
        - split; [apply Forall_app; split; [exact TC|]; eapply equivalent_true; [apply FA, TD|exact TD]|]. rewrite map_app, <- (equivalent_periods _ _ (FA computed TD)). apply nodup_app; [exact NC|exact ND|]. intros p I1 I2. assert (X : exists s e, p = (Some s, Some e)) by (apply in_map_iff in I1; destruct I1 as (r & <- & R); rewrite Forall_forall in TC; destruct (TC r R) as (s & e & v & RS & RE & _); exists s, e; unfold period; congruence). destruct X as (s & e & ->). apply CD in I2. destruct I2 as [X _]. apply MC in X. destruct X as [X N]. apply N, CI. auto.
        - destruct AN as (_ & N & T & _). split; [eapply equivalent_true; [apply FA, T|exact T]|]. rewrite <- (equivalent_periods _ _ (FA d T)). exact N. }
      destruct (sc_export sc computed) as [|n0 new] eqn:EX; [exists d, cache; split; [reflexivity|]; split; [exact AN|split; assumption]|]. rewrite <- EX in *. eexists d, _. split; [reflexivity|]. split; [exact AN|exact GC].
  Qed.
End History.

Section Serve.
  Context {A : Type} (sc : stat_class A) (chunks : list actype -> tf -> list (tf * A)) (ok : tf -> Prop) (stat : Z -> Z -> option A) (same : A -> A -> Prop).
  Hypothesis OKB : forall t, ok t -> is_bounded t.
  Hypothesis EQ : equivalence same.
  Definition fits (q : list actype * list tf) : Prop := proper_request ok (snd q) /\ whole ok (chunks (fst q)) stat /\ storable sc stat same (fst q).
  Lemma serve_thm h : Forall fits h -> forall cache, good_cache stat same cache ->
    good_cache stat same (snd (serve sc chunks h cache)) /\
    Forall2 (fun q a => exists d d', a = Ok d /\ fst (get_stat sc (chunks (fst q)) (fst q) (snd q) []) = Ok d' /\ equivalent_tables same d d' /\ answer stat same (snd q) d) h (fst (serve sc chunks h cache)).
  Proof.
    induction 1 as [|[ac sections] h (PR & WH & SV) F IH]; intros cache G; [split; [exact G|constructor]|]. cbn in PR, WH, SV. cbn [serve].
    destruct (get_stat_thm sc (chunks ac) ok stat same OKB WH EQ ac SV sections cache PR G) as (d & cache' & -> & AN & G'). destruct (IH cache' G') as [G2 F2]. destruct (serve sc chunks h cache') as [l final]. split; [exact G2|]. cbn [fst] in *. constructor; [|exact F2].
    destruct (get_stat_thm sc (chunks ac) ok stat same OKB WH EQ ac SV sections [] PR ltac:(split; constructor)) as (d' & c' & E' & AN' & _). exists d, d'. split; [reflexivity|]. cbn [snd fst]. rewrite E'. split; [reflexivity|]. split; [apply (answers_equal stat same EQ sections); [exact (proj2 PR)|assumption|assumption]|exact AN].
  Qed.
End Serve.
