(** Lemmas about importing the SMART data set: homes. *)
From Coq Require Import String Lia.
From Verif Require Import Base SmartModel SmartSpec SmartProofs.
Import List. Open Scope list_scope. Open Scope nat_scope.

(** ** Names in the order of appearance *)

Lemma firsts_ext l : forall s s', (forall n, In n s <-> In n s') -> firsts s l = firsts s' l.
Proof.
  induction l as [|n l IH]; intros s s' H; [reflexivity|]. cbn [firsts]. destruct (in_dec string_dec n s) as [I|I], (in_dec string_dec n s') as [J|J].
  - apply IH, H.
  - exfalso. apply J, H, I.
  - exfalso. apply I, H, J.
  - f_equal. apply IH. intros m. cbn. rewrite H. tauto.
Qed.
Lemma firsts_app a : forall s b, firsts s (a ++ b) = firsts s a ++ firsts (a ++ s) b.
Proof.
  induction a as [|n a IH]; intros s b; [reflexivity|]. cbn [List.app firsts]. destruct (in_dec string_dec n s) as [I|I].
  - rewrite IH. f_equal. apply firsts_ext. intros m. cbn. rewrite in_app_iff. split; [tauto|]. intros [<-|K]; tauto.
  - cbn [List.app]. f_equal. rewrite IH. f_equal. apply firsts_ext. intros m. cbn. rewrite !in_app_iff. cbn. tauto.
Qed.
Lemma firsts_in l : forall s n, In n (firsts s l) <-> In n l /\ ~ In n s.
Proof.
  induction l as [|m l IH]; intros s n; cbn [firsts]; [cbn; tauto|]. destruct (in_dec string_dec m s) as [I|I].
  - rewrite IH. cbn. split; [tauto|]. intros [[<-|K] N]; tauto.
  - cbn. rewrite IH. cbn. split.
    + intros [<-|[K N]]; [tauto|]. split; [tauto|]. intros Q. apply N. right. exact Q.
    + intros [[<-|K] N]; [tauto|]. destruct (string_dec m n) as [->|E]; [tauto|]. right. split; [exact K|]. intros [Q|Q]; tauto.
Qed.
Lemma firsts_filter l : forall s, NoDup l -> firsts s l = filter (fun n => negb (has n s)) l.
Proof.
  induction l as [|m l IH]; intros s N; [reflexivity|]. apply NoDup_cons_iff in N. destruct N as [N1 N2]. cbn [firsts filter]. destruct (in_dec string_dec m s) as [I|I].
  - rewrite (proj2 (has_iff m s) I). cbn [negb]. apply IH. exact N2.
  - rewrite (proj2 (has_false m s) I). cbn [negb]. f_equal. rewrite IH by exact N2. apply filter_ext_in. intros n J. f_equal. unfold has. cbn [existsb].
    destruct (String.eqb_spec n m) as [->|E]; [contradiction|reflexivity].
Qed.
Lemma firsts_nodup l : forall s, NoDup (firsts s l).
Proof.
  induction l as [|m l IH]; intros s; cbn [firsts]; [constructor|]. destruct (in_dec string_dec m s); [apply IH|]. constructor; [|apply IH]. rewrite firsts_in. cbn. tauto.
Qed.

Section Homes.
  Context {V : Type}.
  Notation frame := (frame V). Notation year := (year V).
  Notation D := "Date & Time"%string.

  Definition year_names (ts : list frame) : list string := match ts with [] => [] | _ => "use"%string :: concat (map meter_names ts) end.
  Lemma no_date (ts : list frame) : ~ In D (year_names ts).
  Proof.
    destruct ts as [|t ts]; [intros []|]. intros [I|I]; [discriminate|]. apply in_concat in I. destruct I as (l & L & I). apply in_map_iff in L. destruct L as (x & <- & _).
    apply filter_In in I. destruct I as [_ X]. destruct (in_dec string_dec D totals) as [_|Q]; [discriminate|]. apply Q. left. reflexivity.
  Qed.
  Lemma meters_app (a : list (list frame)) ts : NoDup (year_names ts) -> meters_of (a ++ [ts]) = meters_of a ++ filter (fun n => negb (has n (meters_of a))) (year_names ts).
  Proof.
    intros N. unfold meters_of. fold year_names. rewrite flat_map_app. cbn [flat_map]. rewrite app_nil_r. rewrite firsts_app, app_nil_r. fold (year_names ts). f_equal. rewrite firsts_filter by exact N.
    apply filter_ext. intros n. f_equal. apply eq_true_iff_eq. rewrite !has_iff, firsts_in. cbn. unfold year_names. tauto.
  Qed.
  Lemma meters_skip (a : list (list frame)) : meters_of (a ++ [[]]) = meters_of a.
  Proof. unfold meters_of. rewrite flat_map_app. cbn [flat_map]. now rewrite !app_nil_r. Qed.
  Lemma meters_no_date (a : list (list frame)) : ~ In D (meters_of a).
  Proof. unfold meters_of. rewrite firsts_in. intros [I _]. apply in_flat_map in I. destruct I as (ts & _ & I). exact (no_date ts I). Qed.
  Lemma meters_nil (a : list (list frame)) : Forall (fun ts => ts = []) a -> meters_of a = [].
  Proof. unfold meters_of. induction 1 as [|ts a -> H IH]; [reflexivity|]. exact IH. Qed.

  (** ** One year *)

  Definition year_column (n : string) (ts : list frame) : list (option V) :=
    match ts with
    | [] => []
    | t :: _ => align (f_len t) (if string_dec n D then match col D (f_cols t) with Some c => c | None => [] end else meter_column n ts)
    end.
  Definition year_len (ts : list frame) : nat := match ts with [] => 0 | t :: _ => f_len t end.
  Lemma year_column_length n ts : length (year_column n ts) = year_len ts.
  Proof. destruct ts; [reflexivity|]. apply align_length. Qed.

  Lemma rest_col n k (ts : list frame) :
    match col n (flat_map (fun t => aligned k (kept t)) ts) with Some c => c | None => repeat None k end =
    align k (match of_some_file n ts with Some c => c | None => [] end) /\
    (of_some_file n ts = None <-> col n (flat_map (fun t => aligned k (kept t)) ts) = None).
  Proof.
    induction ts as [|t ts [IH1 IH2]]; cbn [flat_map of_some_file]; [split; [cbn; symmetry; apply align_nil|tauto]|]. rewrite col_app. unfold aligned at 1 3. rewrite col_map, kept_col.
    destruct (if in_dec string_dec n totals then None else col n (f_cols t)) as [c|]; [split; [reflexivity|split; discriminate]|]. split; [exact IH1|exact IH2].
  Qed.

  Lemma year_part n t ts d m : is_table t -> col D (f_cols t) = Some d -> whole_use t = Some m -> ~ In "use"%string (concat (map meter_names (t :: ts))) ->
    part n (year_frame t ts d m) = year_column n (t :: ts).
  Proof.
    intros T E M N. unfold part, year_frame. rewrite column_col. cbn [f_cols f_len col year_column]. destruct (string_dec n D) as [->|ND]; [rewrite E; reflexivity|].
    unfold meter_column. destruct (string_dec n "use") as [->|NU]; [rewrite M; reflexivity|]. rewrite col_app, kept_col. cbn [of_some_file].
    destruct (in_dec string_dec n totals) as [I|I]; [apply (rest_col n (f_len t) ts)|]. destruct (col n (f_cols t)) as [c|] eqn:C; [|apply (rest_col n (f_len t) ts)].
    apply col_in in C. unfold is_table in T. rewrite Forall_forall in T. specialize (T _ C). cbn [snd] in T. rewrite <- T. symmetry. apply align_id.
  Qed.
  Lemma year_frame_names t ts d m : names (year_frame t ts d m) = D :: year_names (t :: ts).
  Proof.
    unfold names, year_frame. cbn [f_cols map fst year_names concat]. do 2 f_equal. rewrite map_app, kept_names. f_equal. induction ts as [|x ts IH]; [reflexivity|].
    cbn [flat_map map concat]. rewrite map_app, aligned_names, kept_names. now rewrite IH.
  Qed.

  (** ** All years *)

  Definition gathered (done : list (list frame)) (a : frame) : Prop :=
    f_len a = length (flat_map (year_column D) done) /\
    f_cols a = map (fun n => (n, flat_map (year_column n) done)) (names a) /\
    ((Forall (fun ts => ts = []) done /\ names a = []) \/ (Exists (fun ts => ts <> []) done /\ names a = D :: meters_of done)).

  Lemma columns_length n done : length (flat_map (year_column n) done) = length (flat_map (year_column D) done).
  Proof. induction done as [|ts done IH]; [reflexivity|]. cbn [flat_map]. rewrite !app_length, !year_column_length. now rewrite IH. Qed.

  Lemma absent_years n done : ~ In n (D :: meters_of done) -> flat_map (year_column n) done = repeat None (length (flat_map (year_column D) done)).
  Proof.
    intros N. assert (Q : forall ts, In ts done -> ~ In n (D :: year_names ts)).
    { intros ts I [J|J]; apply N; [left; exact J|]. right. unfold meters_of. rewrite firsts_in. split; [|intros []]. apply in_flat_map. exists ts. split; [exact I|exact J]. }
    clear N. induction done as [|ts done IH]; [reflexivity|]. cbn [flat_map]. rewrite app_length, repeat_app, year_column_length. rewrite IH by (intros x X; apply Q; right; exact X). f_equal.
    specialize (Q ts (or_introl eq_refl)). destruct ts as [|t ts]; [reflexivity|]. cbn [year_column year_len]. destruct (string_dec n D) as [->|ND]; [exfalso; apply Q; left; reflexivity|].
    unfold meter_column. destruct (string_dec n "use") as [->|NU]; [exfalso; apply Q; right; left; reflexivity|].
    assert (O : forall l : list frame, ~ In n (concat (map meter_names l)) -> of_some_file n l = None).
    { clear. induction l as [|x l IH]; intros H; [reflexivity|]. cbn [of_some_file map concat] in *. assert (H1 : ~ In n (meter_names x)) by (intros J; apply H, in_or_app; now left).
      rewrite <- kept_names in H1. apply col_none in H1. rewrite kept_col in H1. rewrite H1. apply IH. intros J. apply H, in_or_app. now right. }
    rewrite O; [apply align_nil|]. intros J. apply Q. right. right. exact J.
  Qed.

  Lemma gathered_part n done a : gathered done a -> part n a = flat_map (year_column n) done.
  Proof.
    intros (L & C & N). unfold part. rewrite column_col, C, col_table. destruct (in_dec string_dec n (names a)) as [I|I]; [reflexivity|]. rewrite L.
    destruct N as [(E & _)|(_ & N)].
    - clear - E. induction E as [|ts done -> E IH]; [reflexivity|]. exact IH.
    - symmetry. apply absent_years. rewrite <- N. exact I.
  Qed.

  Lemma year_gathered done a t ts d m : gathered done a -> well_formed (t :: ts) -> col D (f_cols t) = Some d -> whole_use t = Some m ->
    exists a', concat_years a (year_frame t ts d m) = Ok a' /\ gathered (done ++ [t :: ts]) a'.
  Proof.
    intros G (T & _ & _ & N) E M. pose proof G as (L & C & H). apply Forall_cons_iff in T. destruct T as [T _].
    assert (NU : ~ In "use"%string (concat (map meter_names (t :: ts)))) by (apply NoDup_cons_iff in N; apply N).
    assert (Nd : NoDup (D :: year_names (t :: ts))) by (constructor; [apply no_date|exact N]).
    unfold concat_years. rewrite year_frame_names. rewrite (proj2 (distinct_iff _) Nd).
    eexists. split; [reflexivity|]. set (ns := names a ++ filter (fun n => negb (has n (names a))) (D :: year_names (t :: ts))).
    assert (Nn : forall g : string -> list (option V), names (mkFrame (f_len a + f_len (year_frame t ts d m)) (map (fun n => (n, g n)) ns)) = ns) by (intros g; unfold names; cbn [f_cols]; rewrite map_map; apply map_id).
    unfold gathered. rewrite Nn. cbn [f_len f_cols]. split; [|split].
    - rewrite flat_map_app, app_length, L. cbn [flat_map]. rewrite app_nil_r, year_column_length. reflexivity.
    - apply map_ext. intros n. rewrite (gathered_part n done a G), (year_part n t ts d m T E M NU), flat_map_app. cbn [flat_map]. rewrite app_nil_r. reflexivity.
    - right. split; [apply Exists_exists; exists (t :: ts); split; [apply in_or_app; right; left; reflexivity|discriminate]|].
      rewrite meters_app by exact N. unfold ns. destruct H as [(Em & ->)|(_ & ->)].
      + rewrite (meters_nil _ Em). cbn [List.app]. change (fun n => negb (has n [])) with (fun _ : string => true).
        assert (FT : forall l : list string, filter (fun _ => true) l = l) by (induction l as [|x l IH]; [reflexivity|cbn; now rewrite IH]). rewrite !FT. reflexivity.
      + cbn [List.app filter]. assert (HD : has D (D :: meters_of done) = true) by (apply has_iff; left; reflexivity). rewrite HD. cbn [negb]. f_equal. f_equal.
        apply filter_ext_in. intros n I. f_equal. unfold has. cbn [existsb]. destruct (String.eqb_spec n D) as [->|Q]; [exfalso; exact (no_date _ I)|reflexivity].
  Qed.

  Lemma years_gathered : forall ys tss, Forall2 year_tables ys tss -> Forall well_formed tss -> forall done date a, gathered done a ->
    exists date' a', foldM (fun st y => do r <- load_year (fst st) y;
                       match snd r with None => Ok (fst r, snd st) | Some f => do a <- concat_years (snd st) f; Ok (fst r, a) end) ys (date, a) = Ok (date', a') /\
      gathered (done ++ tss) a'.
  Proof.
    induction 1 as [|y ts ys tss H HF IH]; intros W done date a G.
    - exists date, a. rewrite app_nil_r. split; [reflexivity|exact G].
    - apply Forall_cons_iff in W. destruct W as [W1 W2]. cbn [foldM fst snd]. destruct ts as [|t ts].
      + rewrite (year_skipped date y H). cbn [bind fst snd]. change (done ++ [] :: tss) with (done ++ [[]] ++ tss). rewrite app_assoc. apply IH; [exact W2|].
        destruct G as (L & C & N). split; [rewrite flat_map_app; cbn [flat_map year_column List.app]; rewrite app_nil_r; exact L|].
        split; [rewrite C at 1; apply map_ext; intros n; rewrite flat_map_app; cbn [flat_map year_column List.app]; now rewrite app_nil_r|].
        destruct N as [(E & N)|(E & N)]; [left|right].
        * split; [apply Forall_app; split; [exact E|repeat constructor]|exact N].
        * split; [apply Exists_app; left; exact E|]. rewrite meters_skip. exact N.
      + destruct (year_loaded date y t ts H W1) as (d & m & Ed & Em & El). rewrite El. cbn [bind fst snd].
        destruct (year_gathered done a t ts d m G W1 Ed Em) as (a' & Ea & G'). rewrite Ea. cbn [bind]. change (done ++ (t :: ts) :: tss) with (done ++ [t :: ts] ++ tss). rewrite app_assoc.
        apply IH; [exact W2|exact G'].
  Qed.

  (** ** Channels *)

  Variables (stamp : V -> res Z) (time : V -> Z).

  Lemma stamps_read (c : list (option V)) : (forall v, In (Some v) c -> stamp v = Ok (time v)) -> stamps stamp c = Ok (map (option_map time) c).
  Proof.
    induction c as [|[v|] c IH]; intros H; [reflexivity| |]; unfold stamps in *; cbn [mapM map option_map].
    - rewrite (H v (or_introl eq_refl)). cbn [bind]. rewrite IH by (intros w W; apply H; right; exact W). reflexivity.
    - cbn [bind]. rewrite IH by (intros w W; apply H; right; exact W). reflexivity.
  Qed.
  Lemma combine_app' {A B} (a a' : list A) (b b' : list B) : length a = length b -> combine (a ++ a') (b ++ b') = combine a b ++ combine a' b'.
  Proof. revert b. induction a as [|x a IH]; intros [|y b] L; try discriminate; [reflexivity|]. cbn. f_equal. apply IH. now injection L. Qed.
  Lemma combine_map_map {A B C} (f : A -> B) (g : A -> C) l : combine (map f l) (map g l) = map (fun x => (f x, g x)) l.
  Proof. induction l as [|x l IH]; [reflexivity|]. cbn. now rewrite IH. Qed.

  Lemma rows_combined n tss : n <> D -> combine (map (option_map time) (flat_map (year_column D) tss)) (flat_map (year_column n) tss) = home_rows time n tss.
  Proof.
    intros ND. unfold home_rows. induction tss as [|ts tss IH]; [reflexivity|]. cbn [flat_map]. rewrite map_app, combine_app' by (rewrite map_length, !year_column_length; reflexivity).
    rewrite IH. f_equal. destruct ts as [|t ts]; [reflexivity|]. cbn [year_column year_rows]. destruct (string_dec D D) as [_|Q]; [|congruence]. destruct (string_dec n D) as [Q|_]; [congruence|].
    unfold align. rewrite map_map, combine_map_map. apply map_ext. intros j. reflexivity.
  Qed.

  Lemma home_channels tss a : gathered tss a -> Exists (fun ts => ts <> []) tss -> readable_times stamp time tss ->
    channels stamp a = Ok (map (fun n => home_rows time n tss) (meters_of tss)).
  Proof.
    intros (L & C & N) Ex R. destruct N as [(F & _)|(_ & N)].
    { exfalso. apply Exists_exists in Ex. destruct Ex as (ts & I & Q). rewrite Forall_forall in F. exact (Q (F ts I)). }
    unfold channels. rewrite column_col, C, N. cbn [map col]. destruct (string_dec D D) as [_|Q]; [|congruence].
    rewrite stamps_read.
    - cbn [bind filter fst]. rewrite String.eqb_refl. cbn [negb]. f_equal. pose proof (meters_no_date tss) as ND.
      assert (FA : forall l, ~ In D l -> filter (fun c => negb (String.eqb (fst c) D)) (map (fun n => (n, flat_map (year_column n) tss)) l) = map (fun n => (n, flat_map (year_column n) tss)) l).
      { induction l as [|n l IH]; intros H; [reflexivity|]. cbn [map filter fst]. destruct (String.eqb_spec n D) as [->|Q]; [exfalso; apply H; left; reflexivity|]. cbn [negb]. f_equal. apply IH.
        intros J. apply H. right. exact J. }
      rewrite FA by exact ND. rewrite map_map. apply map_ext_in. intros n I. cbn [snd]. apply rows_combined. intros ->. exact (ND I).
    - intros v I. apply in_flat_map in I. destruct I as (ts & Its & I). destruct ts as [|t ts]; [destruct I|]. cbn [year_column] in I. destruct (string_dec D D) as [_|Q]; [|congruence].
      unfold align in I. apply in_map_iff in I. destruct I as (j & E & _). destruct (col D (f_cols t)) as [c|] eqn:Ec; [|destruct j; discriminate].
      destruct (nth_in_or_default j c None) as [J|J]; [|congruence]. rewrite E in J. exact (R t ts c v Its Ec J).
  Qed.

  Lemma get_app (s s' : store V) b m : get (s ++ s') b m = match get s b m with Some t => Some t | None => get s' b m end.
  Proof. induction s as [|[[b' m'] t] s IH]; [reflexivity|]. cbn. destruct ((b =? b') && (m =? m')); [reflexivity|exact IH]. Qed.
  Lemma get_channels b b' m : forall (l : list (list (option Z * option V))) k, get (put_channels b k l) b' m =
    if (b' =? b) && (k <=? m) then match nth_error l (m - k) with Some t => stored t | None => None end else None.
  Proof.
    induction l as [|t l IH]; intros k; cbn [put_channels].
    - cbn. destruct ((b' =? b) && (k <=? m)); [destruct (m - k); reflexivity|reflexivity].
    - rewrite get_app, IH. destruct (Nat.eqb_spec b' b) as [->|Nb]; cbn [andb].
      2:{ destruct t as [|x t]; [reflexivity|]. cbn. destruct (Nat.eqb_spec b' b) as [E|_]; [congruence|reflexivity]. }
      destruct (Nat.leb_spec k m) as [Lk|Lk].
      + destruct (Nat.eq_dec m k) as [->|Nk].
        * rewrite Nat.sub_diag. cbn [nth_error]. destruct (Nat.leb_spec (S k) k); [lia|]. destruct t as [|x t]; [reflexivity|]. cbn. rewrite !Nat.eqb_refl. reflexivity.
        * destruct (Nat.leb_spec (S k) m); [|lia]. replace (m - k) with (S (m - S k)) by lia. cbn [nth_error].
          destruct t as [|x t]; [reflexivity|]. cbn. rewrite Nat.eqb_refl. destruct (Nat.eqb_spec m k); [congruence|reflexivity].
      + destruct (Nat.leb_spec (S k) m); [lia|]. destruct t as [|x t]; [reflexivity|]. cbn. rewrite Nat.eqb_refl. destruct (Nat.eqb_spec m k); [lia|reflexivity].
  Qed.

  Lemma homes_converted (home : string -> res (list year)) : forall hs hts, Forall2 (fun h tss => exists ys, home h = Ok ys /\ good_home stamp time ys tss) hs hts -> forall b date,
    exists s, convert_homes stamp home hs b date = Ok s /\
      forall b' m, get s b' m = match (if b <=? b' then nth_error hts (b' - b) else None) with
        | Some tss => match m with 0 => None | S k => match nth_error (meters_of tss) k with Some n => stored (home_rows time n tss) | None => None end end
        | None => None end.
  Proof.
    induction 1 as [|h tss hs hts (ys & Hy & G1 & G2 & G3 & G4) HF IH]; intros b date.
    - exists []. split; [reflexivity|]. intros b' m. destruct (b <=? b'); [destruct (b' - b); reflexivity|reflexivity].
    - cbn [convert_homes]. rewrite Hy. cbn [bind].
      assert (G0 : gathered [] (mkFrame 0 [])) by (split; [reflexivity|split; [reflexivity|left; split; [constructor|reflexivity]]]).
      destruct (years_gathered ys tss G1 G2 [] date (mkFrame 0 []) G0) as (date' & a & E & G). cbn [List.app] in G. unfold load_years. rewrite E. cbn [bind fst snd].
      rewrite (home_channels tss a G G3 G4). cbn [bind]. destruct (IH (S b) date') as (s & Es & Gs). rewrite Es. cbn [bind]. eexists. split; [reflexivity|].
      intros b' m. rewrite get_app, get_channels, Gs. destruct (Nat.eqb_spec b' b) as [->|Nb]; cbn [andb].
      + destruct (Nat.leb_spec b b); [|lia]. rewrite Nat.sub_diag. cbn [nth_error]. destruct (Nat.leb_spec (S b) b); [lia|]. destruct m as [|k]; [reflexivity|].
        cbn [Nat.leb]. replace (S k - 1) with k by lia. rewrite nth_error_map. destruct (nth_error (meters_of tss) k) as [n|]; [|reflexivity]. cbn [option_map]. destruct (stored (home_rows time n tss)); reflexivity.
      + destruct (Nat.leb_spec b b') as [L|L], (Nat.leb_spec (S b) b') as [L'|L']; try lia; [|reflexivity]. replace (b' - b) with (S (b' - S b)) by lia. reflexivity.
  Qed.

  Lemma home_fails ys tss date : Forall2 year_tables ys tss -> Forall (fun ts => ts = []) tss -> exists date' a, load_years date ys = Ok (date', a) /\ channels stamp a = Err KeyError.
  Proof.
    intros G1 E. assert (G0 : gathered [] (mkFrame 0 [])) by (split; [reflexivity|split; [reflexivity|left; split; [constructor|reflexivity]]]).
    assert (G2 : Forall well_formed tss) by (eapply Forall_impl; [|exact E]; intros ts ->; exact I).
    destruct (years_gathered ys tss G1 G2 [] date (mkFrame 0 []) G0) as (date' & a & El & (L & C & N)). exists date', a. split; [exact El|]. cbn [List.app] in N.
    destruct N as [(_ & N)|(Ex & _)]; [|exfalso; apply Exists_exists in Ex; destruct Ex as (ts & Q & R); rewrite Forall_forall in E; exact (R (E ts Q))].
    unfold channels. rewrite C, N. reflexivity.
  Qed.
  Lemma homes_fail (home : string -> res (list year)) : forall hs b date,
    (forall h, In h hs -> exists ys tss, home h = Ok ys /\ (good_home stamp time ys tss \/ empty_home ys)) ->
    (exists h ys, In h hs /\ home h = Ok ys /\ empty_home ys) -> convert_homes stamp home hs b date = Err KeyError.
  Proof.
    induction hs as [|h hs IH]; intros b date H (h0 & ys0 & I0 & Hy0 & E0); [destruct I0|]. cbn [convert_homes].
    destruct (H h (or_introl eq_refl)) as (ys & tss & Hy & Q). rewrite Hy. cbn [bind].
    assert (K : forall es, Forall (fun y : year => year_tables y []) es -> exists ts, Forall2 year_tables es ts /\ Forall (fun t : list frame => t = []) ts).
    { induction es as [|e es IHe]; intros F; [exists []; split; constructor|]. apply Forall_cons_iff in F. destruct F as [F1 F2]. destruct (IHe F2) as (ts & A & B). exists ([] :: ts). split; constructor; auto. }
    destruct Q as [(G1 & G2 & G3 & G4)|E].
    - assert (G0 : gathered [] (mkFrame 0 [])) by (split; [reflexivity|split; [reflexivity|left; split; [constructor|reflexivity]]]).
      destruct (years_gathered ys tss G1 G2 [] date (mkFrame 0 []) G0) as (date' & a & El & G). cbn [List.app] in G. unfold load_years. rewrite El. cbn [bind fst snd].
      rewrite (home_channels tss a G G3 G4). cbn [bind].
      destruct I0 as [<-|I0].
      + exfalso. assert (ys0 = ys) by congruence. subst ys0. apply Exists_exists in G3. destruct G3 as (ts & I1 & N1). apply N1. clear - G1 E0 I1 N1.
        assert (U : forall y : year, forall l ts ts', tables_of y l ts -> tables_of y l ts' -> ts = ts').
        { clear. intros y l ts ts' T. revert ts'. induction T as [|first middle line last r t ts (p & E) M C T IH|lines line last r ts (p & E) M T IH]; intros ts' T'.
          - inversion T'. reflexivity.
          - inversion T' as [|f2 m2 l2 la2 r2 t2 ts2 (p2 & E2) M2 C2 T2|li2 l2 la2 r2 ts2 (p2 & E2) M2 T2]; subst.
            + rewrite C in C2. injection C2 as <-. f_equal. apply IH. exact T2.
            + exfalso. rewrite E in E2. change (p ++ [line; last]) with (p ++ [line] ++ [last]) in E2. change (p2 ++ [l2; la2]) with (p2 ++ [l2] ++ [la2]) in E2. rewrite !app_assoc in E2.
              apply app_inj_tail in E2. destruct E2 as [E2 _]. apply app_inj_tail in E2. destruct E2 as [_ <-]. contradiction.
          - inversion T' as [|f2 m2 l2 la2 r2 t2 ts2 (p2 & E2) M2 C2 T2|li2 l2 la2 r2 ts2 (p2 & E2) M2 T2]; subst.
            + exfalso. match goal with Q : _ = _ :: _ |- _ => rewrite <- Q in E2 | Q : _ :: _ = p ++ _ |- _ => rewrite Q in E2 end. change (p ++ [line; last]) with (p ++ [line] ++ [last]) in E2. change (p2 ++ [l2; la2]) with (p2 ++ [l2] ++ [la2]) in E2. rewrite !app_assoc in E2.
              apply app_inj_tail in E2. destruct E2 as [E2 _]. apply app_inj_tail in E2. destruct E2 as [_ <-]. contradiction.
            + apply IH. exact T2. }
        unfold empty_home in E0. rewrite Forall_forall in E0. clear N1. induction G1 as [|y t ys tss Y G1 IH]; [destruct I1|]. destruct I1 as [<-|I1].
        * apply (U y (y_txt y)); [exact Y|]. apply E0. left. reflexivity.
        * apply IH; [intros x X; apply E0; right; exact X|exact I1].
      + rewrite (IH (S b) date'); [reflexivity| |exists h0, ys0; auto]. intros h1 I1. apply H. right. exact I1.
    - destruct (K ys E) as (ts & A & B). destruct (home_fails ys ts date A B) as (date' & a & El & Ec). rewrite El. cbn [bind fst snd]. rewrite Ec. reflexivity.
  Qed.
End Homes.

(** A text file too short. *)
Lemma short_name : forall {V} (y : year V) l, length l < 2 -> csv_name y l = Err IndexError.
Proof. intros V y [|a [|b l]] H; cbn in *; try reflexivity. exfalso. apply Nat.lt_nge in H. apply H. apply le_n_S, le_n_S, Nat.le_0_l. Qed.
Lemma long_name : forall {V} (y : year V) l, 2 <= length l -> exists o, csv_name y l = Ok o.
Proof.
  intros V y l H. unfold csv_name. rewrite <- rev_length in H. destruct (rev l) as [|a [|b r]]; cbn in H.
  - now apply Nat.nle_succ_0 in H.
  - apply le_S_n in H. now apply Nat.nle_succ_0 in H.
  - destruct (contains "30" b); eexists; reflexivity.
Qed.
Lemma short_year : forall {V} (y : year V) pre short post, y_txt y = pre ++ short :: post -> Forall (fun l => 2 <= length l) pre -> length short < 2 ->
  find_all_csv_paths y = Err IndexError.
Proof.
  intros V y pre short post E F S. unfold find_all_csv_paths. rewrite E. clear E.
  assert (M : mapM (csv_name y) (pre ++ short :: post) = Err IndexError).
  { induction F as [|l pre L F IH]; cbn [List.app mapM].
    - rewrite short_name by auto. reflexivity.
    - destruct (long_name y l L) as [o ->]. cbn [bind]. now rewrite IH. }
  now rewrite M.
Qed.
Lemma short_file : forall {V} (stamp : V -> res Z) home y ys pre short post, home "A"%string = Ok (y :: ys) -> y_txt y = pre ++ short :: post ->
  Forall (fun l => 2 <= length l) pre -> length short < 2 -> convert_smart stamp home = Err IndexError.
Proof.
  intros V stamp home y ys pre short post H E F S. unfold convert_smart. cbn [convert_homes]. rewrite H. cbn [bind].
  unfold load_years. cbn [foldM fst snd]. unfold load_year at 1. rewrite (short_year y pre short post E F S). reflexivity.
Qed.
