(** Lemmas about importing the SMART data set. *)
From Coq Require Import String Ascii Lia.
From Verif Require Import Base SmartModel SmartSpec.
Import List. Open Scope list_scope. Open Scope nat_scope.

(** ** Which files are read *)

Lemma starts_iff p : forall s, starts p s = true <-> exists b, s = (p ++ b)%string.
Proof.
  induction p as [|a p IH]; intros s; cbn [starts].
  - split; [intros _; exists s; reflexivity|reflexivity].
  - destruct s as [|c s]; [split; [discriminate|intros (b & [=])]|]. rewrite andb_true_iff, Ascii.eqb_eq, IH. split.
    + intros (-> & b & ->). exists b. reflexivity.
    + intros (b & E). injection E as <- ->. split; [reflexivity|]. exists b. reflexivity.
Qed.
Lemma contains_iff p s : contains p s = true <-> mentions p s.
Proof.
  induction s as [|c s IH]; cbn [contains]; rewrite orb_true_iff, starts_iff.
  - split.
    + intros [(b & E)|[=]]. exists ""%string, b. exact E.
    + intros (a & b & E). left. destruct a; [exists b; exact E|discriminate].
  - rewrite IH. split.
    + intros [(b & E)|(a & b & ->)]; [exists ""%string, b; exact E|exists (String c a), b; reflexivity].
    + intros ([|c' a] & b & E); [left; exists b; exact E|]. injection E as <- ->. right. exists a, b. reflexivity.
Qed.

Section Proofs.
  Context {V : Type}.
  Notation frame := (frame V). Notation year := (year V).

  Lemma tables_found (y : year) l ts : tables_of y l ts ->
    exists os, mapM (csv_name y) l = Ok os /\ mapM (y_csv y) (flat_map (fun o => match o with Some n => [n] | None => [] end) os) = Ok ts.
  Proof.
    induction 1 as [|first middle line last r t ts (p & E) M C T (os & O1 & O2)|lines line last r ts (p & E) M T (os & O1 & O2)].
    - exists []. split; reflexivity.
    - exists (Some (first ++ "_" ++ y_name y ++ ".csv")%string :: os). cbn [mapM]. unfold csv_name at 1. rewrite E at 1. rewrite rev_app_distr. cbn [rev List.app].
      apply contains_iff in M. rewrite M. cbn [bind hd]. rewrite O1. cbn [bind]. split; [reflexivity|]. cbn [flat_map List.app mapM]. rewrite C. cbn [bind]. rewrite O2. reflexivity.
    - exists (None :: os). cbn [mapM]. unfold csv_name at 1. subst lines. rewrite rev_app_distr. cbn [rev List.app].
      destruct (contains "30" line) eqn:K; [apply contains_iff in K; contradiction|]. cbn [bind]. rewrite O1. cbn [bind]. split; [reflexivity|]. exact O2.
  Qed.
  Lemma year_found (y : year) ts : year_tables y ts -> exists ps, find_all_csv_paths y = Ok ps /\ mapM (y_csv y) ps = Ok ts.
  Proof. intros H. destruct (tables_found y _ ts H) as (os & O1 & O2). eexists. unfold find_all_csv_paths. rewrite O1. split; [reflexivity|exact O2]. Qed.

  (** ** Columns *)

  Lemma has_iff n l : has n l = true <-> In n l.
  Proof. unfold has. rewrite existsb_exists. split; [intros (x & I & E); apply String.eqb_eq in E; now subst|intros I; exists n; split; [exact I|apply String.eqb_refl]]. Qed.
  Lemma has_false n l : has n l = false <-> ~ In n l.
  Proof. rewrite <- has_iff. destruct (has n l); split; congruence. Qed.
  Lemma distinct_iff l : distinct l = true <-> NoDup l.
  Proof.
    induction l as [|n l IH]; cbn [distinct]; [split; constructor|]. rewrite andb_true_iff, negb_true_iff, has_false, IH. split; [intros [A B]; now constructor|].
    intros H. apply NoDup_cons_iff in H. exact H.
  Qed.
  Lemma column_col n (l : list (string * list (option V))) : column n l = col n l.
  Proof. induction l as [|[m c] l IH]; [reflexivity|]. cbn. destruct (String.eqb_spec n m), (string_dec n m); congruence. Qed.
  Lemma col_app n (a b : list (string * list (option V))) : col n (a ++ b) = match col n a with Some c => Some c | None => col n b end.
  Proof. induction a as [|[m c] a IH]; [reflexivity|]. cbn. destruct (string_dec n m); [reflexivity|exact IH]. Qed.
  Lemma col_none n (l : list (string * list (option V))) : ~ In n (map fst l) <-> col n l = None.
  Proof.
    induction l as [|[m c] l IH]; cbn; [tauto|]. destruct (string_dec n m); split; intros H; try discriminate.
    - exfalso. apply H. left. congruence.
    - apply IH. tauto.
    - apply IH in H. intros [E|E]; [congruence|tauto].
  Qed.
  Lemma col_in n (l : list (string * list (option V))) c : col n l = Some c -> In (n, c) l.
  Proof. induction l as [|[m d] l IH]; cbn; [discriminate|]. destruct (string_dec n m); [intros [= ->]; left; congruence|intros H; right; exact (IH H)]. Qed.
  Lemma col_map n (f : list (option V) -> list (option V)) (l : list (string * list (option V))) :
    col n (map (fun c => (fst c, f (snd c))) l) = match col n l with Some c => Some (f c) | None => None end.
  Proof. induction l as [|[m c] l IH]; [reflexivity|]. cbn. destruct (string_dec n m); [reflexivity|exact IH]. Qed.
  Lemma col_table n (g : string -> list (option V)) ns : col n (map (fun m => (m, g m)) ns) = if in_dec string_dec n ns then Some (g n) else None.
  Proof.
    induction ns as [|m ns IH]; [reflexivity|]. cbn [map col]. destruct (string_dec n m) as [->|N].
    - destruct (in_dec string_dec m (m :: ns)) as [I|I]; [reflexivity|exfalso; apply I; left; reflexivity].
    - rewrite IH. destruct (in_dec string_dec n ns) as [I|I], (in_dec string_dec n (m :: ns)) as [J|J]; try reflexivity; exfalso.
      + apply J. right. exact I.
      + destruct J as [J|J]; [congruence|exact (I J)].
  Qed.

  Lemma totals_dropped n : has n dropped = (if in_dec string_dec n totals then true else false).
  Proof.
    destruct (in_dec string_dec n totals) as [I|I].
    - apply has_iff. cbn in *. tauto.
    - apply has_false. cbn in *. tauto.
  Qed.
  Definition kept (t : frame) : list (string * list (option V)) := f_cols (preprocess_csv t).
  Lemma kept_names t : map fst (kept t) = meter_names t.
  Proof.
    unfold kept, preprocess_csv, meter_names. cbn [f_cols]. induction (f_cols t) as [|[m c] l IH]; [reflexivity|]. cbn [filter map fst]. rewrite totals_dropped.
    destruct (in_dec string_dec m totals); cbn [negb map fst]; [exact IH|]. f_equal. exact IH.
  Qed.
  Lemma kept_col t n : col n (kept t) = if in_dec string_dec n totals then None else col n (f_cols t).
  Proof.
    unfold kept, preprocess_csv. cbn [f_cols]. induction (f_cols t) as [|[m c] l IH]; [destruct (in_dec string_dec n totals); reflexivity|]. cbn [filter fst]. rewrite totals_dropped.
    destruct (in_dec string_dec m totals) as [I|I]; cbn [negb col]; [|destruct (string_dec n m) as [->|N]].
    - rewrite IH. destruct (in_dec string_dec n totals) as [J|J]; [reflexivity|]. destruct (string_dec n m); [congruence|reflexivity].
    - destruct (in_dec string_dec m totals); [contradiction|reflexivity].
    - exact IH.
  Qed.

  Lemma align_length n (c : list (option V)) : length (align n c) = n.
  Proof. unfold align. now rewrite map_length, seq_length. Qed.
  Lemma align_id (c : list (option V)) : align (length c) c = c.
  Proof.
    unfold align. induction c as [|x c IH]; [reflexivity|]. cbn [length seq map nth]. f_equal. rewrite <- seq_shift, map_map. exact IH.
  Qed.
  Lemma align_nil n : align n (@nil (option V)) = repeat None n.
  Proof. unfold align. generalize 0 at 1. induction n as [|n IH]; intros k; [reflexivity|]. cbn [seq map repeat]. rewrite IH. f_equal. destruct k; reflexivity. Qed.

  Definition aligned (n : nat) (l : list (string * list (option V))) : list (string * list (option V)) := map (fun c => (fst c, align n (snd c))) l.
  Lemma aligned_names n l : map fst (aligned n l) = map fst l.
  Proof. unfold aligned. now rewrite map_map. Qed.

  (** ** Joining the files of a year *)

  Lemma suffixed_none other s l : (forall n, In n l -> ~ In n other) -> map (suffixed other s) l = l.
  Proof.
    induction l as [|n l IH]; intros H; [reflexivity|]. cbn [map]. unfold suffixed at 1. assert (E : has n other = false) by (apply has_false, H; left; reflexivity). rewrite E.
    f_equal. apply IH. intros m I. apply H. right. exact I.
  Qed.
  Lemma combine_fst_snd {A B} (l : list (A * B)) : combine (map fst l) (map snd l) = l.
  Proof. induction l as [|[a b] l IH]; [reflexivity|]. cbn. now rewrite IH. Qed.
  Lemma NoDup_app_l {A} (a b : list A) : NoDup (a ++ b) -> NoDup a /\ NoDup b /\ forall x, In x a -> ~ In x b.
  Proof.
    induction a as [|x a IH]; cbn; intros H; [split; [constructor|split; [exact H|intros ? []]]|]. apply NoDup_cons_iff in H. destruct H as [H1 H2]. destruct (IH H2) as (A1 & A2 & A3).
    split; [constructor; [intros I; apply H1, in_or_app; now left|exact A1]|]. split; [exact A2|]. intros y [<-|I]; [intros J; apply H1, in_or_app; now right|exact (A3 y I)].
  Qed.

  Lemma join_distinct (l r : frame) : NoDup (names l ++ names r) -> join l r = Ok (mkFrame (f_len l) (f_cols l ++ aligned (f_len l) (f_cols r))).
  Proof.
    intros H. apply NoDup_app_l in H. destruct H as (H1 & H2 & H3). unfold join.
    rewrite (suffixed_none (names r) "_1") by exact H3. rewrite (suffixed_none (names l) "_2") by (intros n I J; exact (H3 n J I)).
    rewrite (proj2 (distinct_iff _) H1), (proj2 (distinct_iff _) H2). cbn [andb]. do 2 f_equal. unfold names. rewrite combine_fst_snd. f_equal.
    rewrite <- (combine_fst_snd (aligned (f_len l) (f_cols r))). f_equal; unfold aligned; rewrite map_map; reflexivity.
  Qed.

  Lemma join_all : forall ts (f : frame), NoDup (names f ++ concat (map meter_names ts)) ->
    foldM (fun f t => join f (preprocess_csv t)) ts f = Ok (mkFrame (f_len f) (f_cols f ++ flat_map (fun t => aligned (f_len f) (kept t)) ts)).
  Proof.
    induction ts as [|t ts IH]; intros f H; cbn [foldM flat_map map concat] in *; [rewrite app_nil_r; destruct f; reflexivity|].
    assert (E : names (preprocess_csv t) = meter_names t) by (apply kept_names).
    rewrite app_assoc in H. pose proof (proj1 (NoDup_app_l _ _ H)) as H0. rewrite join_distinct by (rewrite E; exact H0). cbn [bind]. rewrite IH.
    - cbn [f_len f_cols]. rewrite <- app_assoc. reflexivity.
    - unfold names at 1. cbn [f_cols]. rewrite map_app, aligned_names. fold (kept t). rewrite kept_names. exact H.
  Qed.

  Definition year_frame (t : frame) (ts : list frame) (d m : list (option V)) : frame :=
    mkFrame (f_len t) (("Date & Time"%string, align (f_len t) d) :: ("use"%string, align (f_len t) m) :: kept t ++ flat_map (fun t' => aligned (f_len t) (kept t')) ts).

  Lemma year_loaded date (y : year) t ts : year_tables y (t :: ts) -> well_formed (t :: ts) ->
    exists d m, col "Date & Time" (f_cols t) = Some d /\ whole_use t = Some m /\ load_year date y = Ok (Some d, Some (year_frame t ts d m)).
  Proof.
    intros T (_ & D & M & N). destruct (col "Date & Time" (f_cols t)) as [d|] eqn:Ed; [|congruence]. destruct (whole_use t) as [m|] eqn:Em; [|congruence].
    exists d, m. split; [reflexivity|]. split; [reflexivity|]. destruct (year_found y _ T) as (ps & P1 & P2). unfold load_year. rewrite P1. cbn [bind]. rewrite P2. cbn [bind].
    rewrite !column_col, Ed. fold (whole_use t). rewrite Em. cbn [map concat] in N. apply NoDup_cons_iff in N. destruct N as [N1 N2].
    assert (E : names (preprocess_csv t) = meter_names t) by (apply kept_names).
    rewrite join_all by (rewrite E; exact N2). cbn [bind].
    set (j := mkFrame (f_len (preprocess_csv t)) _).
    assert (Nj : names j = meter_names t ++ concat (map meter_names ts)).
    { unfold j, names. cbn [f_cols]. rewrite map_app. f_equal; [exact E|]. clear. induction ts as [|x ts IH]; [reflexivity|]. cbn [flat_map map concat]. rewrite map_app, aligned_names, kept_names. now rewrite IH. }
    assert (H1 : has "Date & Time" (names j) = false).
    { apply has_false. rewrite Nj. intros I.
      assert (K : forall x : frame, ~ In "Date & Time"%string (meter_names x)).
      { intros x X. apply filter_In in X. destruct X as [_ X]. destruct (in_dec string_dec "Date & Time"%string totals) as [_|Q]; [discriminate|]. apply Q. left. reflexivity. }
      apply in_app_or in I. destruct I as [I|I]; [exact (K t I)|]. apply in_concat in I. destruct I as (l & L & I). apply in_map_iff in L. destruct L as (x & <- & _). exact (K x I). }
    unfold insert_at at 1. rewrite H1. cbn [bind firstn skipn List.app].
    assert (H2 : has "use" ("Date & Time"%string :: names j) = false).
    { apply has_false. rewrite Nj. intros [I|I]; [discriminate|exact (N1 I)]. }
    unfold insert_at. unfold names at 1. cbn [f_cols map fst]. fold (names j). rewrite H2. cbn [bind firstn skipn List.app f_len j]. reflexivity.
  Qed.
  Lemma year_skipped date (y : year) : year_tables y [] -> load_year date y = Ok (date, None).
  Proof. intros T. destruct (year_found y _ T) as (ps & P1 & P2). unfold load_year. rewrite P1. cbn [bind]. rewrite P2. reflexivity. Qed.
End Proofs.
