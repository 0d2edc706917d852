(** Lemmas on the download of Dataport: the whole run. *)
From Coq Require Import String QArith Lia.
From Verif Require Import Base LocalModel LocalSpec LocalProofs DownloadModel DownloadSpec DownloadProofs DownloadProofs2 DownloadProofs3.
Import List. Open Scope list_scope. Open Scope nat_scope.

(** Substrings. *)
Lemma prefix_iff : forall x s, prefix x s = true <-> exists b, s = (x ++ b)%string.
Proof.
  induction x as [|c x IH]; intros s.
  - split; [intros _; now exists s|]. intros _. destruct s; reflexivity.
  - destruct s as [|d s]; cbn [prefix]; [split; [discriminate|intros [b E]; discriminate E]|].
    destruct (Ascii.ascii_dec c d) as [<-|N].
    + rewrite IH. split; intros [b E]; exists b; cbn [String.append] in *; congruence.
    + split; [discriminate|]. intros [b E]. cbn [String.append] in E. congruence.
Qed.
Lemma occurs_iff : forall x s, occurs x s = true <-> contains s x.
Proof.
  intros x s. unfold occurs, contains. induction s as [|d s IH].
  - cbn [index]. destruct x as [|c x].
    + split; [intros _; exists ""%string, ""%string; reflexivity|reflexivity].
    + split; [discriminate|]. intros (a & b & E). destruct a; discriminate E.
  - cbn [index]. destruct (prefix x (String d s)) eqn:P.
    + split; [|reflexivity]. intros _. apply prefix_iff in P. destruct P as [b P]. exists ""%string, b. exact P.
    + split.
      * intros H. destruct (index 0 x s) eqn:E; [|discriminate]. destruct (proj1 IH eq_refl) as (a & b & ->). exists (String d a), b. reflexivity.
      * intros (a & b & E). destruct a as [|a' a].
        -- exfalso. assert (prefix x (String d s) = true) by (apply prefix_iff; now exists b). congruence.
        -- cbn [String.append] in E. injection E as -> E. assert (H : exists a b, s = (a ++ x ++ b)%string) by (now exists a, b). apply IH in H.
           destruct (index 0 x s); [reflexivity|discriminate].
Qed.
Lemma views_count : forall db table n, views db table n -> n = length (matching db table).
Proof.
  intros [vs sp] table n (flags & F & ->). unfold matching. cbn [d_views] in *. induction F as [|v f vs flags H F IH]; [reflexivity|]. cbn [filter].
  rewrite <- occurs_iff in H. destruct f, (occurs table (v_name v)); cbn [length]; try (f_equal; exact IH); intuition congruence.
Qed.

Lemma adds_trans : forall n T1 T2 a b c, adds n T1 a b -> adds n T2 b c -> adds n (fun k => T1 k ++ T2 k) a c.
Proof. intros n T1 T2 a b c A B n' k. rewrite (B n' k), (A n' k), <- app_assoc. f_equal. destruct (n =? n'); reflexivity. Qed.
Definition copies (n : nat) (T : nat -> list (Z * option Q)) (k : nat) : list (Z * option Q) := concat (repeat (T k) n).

Section Own.
Variables (z : zone) (db : database) (table : string) (periods : list (Z * period)) (v : view) (i : nat) (b lo hi : Z).
Hypothesis (R : regular z) (ZW : whole_zone z) (W : whole_rows v) (C : listed table compatible = true) (A : asks z db table periods v i b lo hi).
Let ids := map fst periods.
Let T := all_parts (scaled table) z b v (stretches lo hi).

Lemma own_position : position b ids = i.
Proof.
  destruct A as (_ & _ & _ & N & s & e & a & a' & first & last & P & _). apply position_nth; [exact N|]. unfold ids. now rewrite nth_error_map, P.
Qed.
Lemma own_find : find (fun v => String.eqb (v_name v) table) (d_views db) = Some v.
Proof. destruct A as (I & N & D & _). now apply found_view. Qed.
Lemma own_whole : whole lo /\ whole hi.
Proof.
  destruct A as (_ & _ & _ & _ & s & e & a & a' & first & last & _ & LS & LE & _ & WS & WE & WF & WL & -> & ->).
  assert (WA : whole a) by now apply (localize_whole z s). assert (WA' : whole a') by now apply (localize_whole z e).
  split; [destruct (Z.max_spec a first) as [[_ ->]|[_ ->]]|destruct (Z.min_spec a' last) as [[_ ->]|[_ ->]]]; assumption.
Qed.
Lemma own_view : forall o, one_view z db table periods ids b o = foldM (one_chunk z db table ids b) (map (fun x => (fst x, (snd x - sec)%Z)) (stretches lo hi)) o.
Proof.
  intros o. destruct A as (_ & _ & _ & N & s & e & a & a' & first & last & P & LS & LE & SP & _ & _ & _ & _ & -> & ->).
  unfold one_view. rewrite (span_kind table C), SP. unfold requested. rewrite (dget_nodup periods i b _ N P), LS, LE. cbn [bind].
  destruct (Z.ltb a' a) eqn:E.
  - apply Z.ltb_lt in E. rewrite stretches_end by lia. reflexivity.
  - rewrite chunks_enough. reflexivity.
Qed.
Lemma own_view_ok : forall o o', one_view z db table periods ids b o = Ok o' -> adds (S i) T o o' /\ described (S i) b z v (stretches lo hi) o' /\ (stretches lo hi = [] -> o' = o).
Proof.
  intros o o' H. rewrite own_view in H. rewrite <- own_position. apply (stretches_fold z db table ids b v (stretches lo hi) o o' R ZW W own_find); [|exact H].
  apply Forall_forall. intros x I. destruct own_whole as [WL WH]. destruct (stretch_whole lo hi x WL WH I) as (P & Q & _). auto.
Qed.
Lemma own_views : forall (l : list view) o o', foldM (fun o _ => one_view z db table periods ids b o) l o = Ok o' ->
  adds (S i) (copies (length l) T) o o' /\ (l <> [] -> described (S i) b z v (stretches lo hi) o') /\ (stretches lo hi = [] -> o' = o).
Proof.
  induction l as [|x l IH]; intros o o' H; cbn [foldM] in H.
  - injection H as <-. split; [|split; [congruence|reflexivity]]. intros n' k. cbn. destruct n'; [now rewrite app_nil_r|]. destruct (i =? n'); now rewrite app_nil_r.
  - destruct (one_view z db table periods ids b o) as [o1|] eqn:E; [|discriminate]. cbn [bind] in H.
    destruct (own_view_ok o o1 E) as (P & Q & U). destruct (IH o1 o' H) as (P' & Q' & U'). split; [|split].
    + exact (adds_trans _ _ _ _ _ _ P P').
    + intros _. destruct l as [|y l]; [cbn [foldM] in H; injection H as <-; exact Q|]. apply Q'. discriminate.
    + intros S0. rewrite (U' S0). now apply U.
Qed.
Lemma own_building : forall o, download z db table periods = Ok o ->
  (forall k, stored o (S i) k = copies (length (matching db table)) T k) /\ described (S i) b z v (stretches lo hi) o /\ (stretches lo hi = [] -> metadata o (S i) = None).
Proof.
  intros o H. unfold download in H. rewrite C in H. cbn [negb] in H.
  assert (B : buildings db table periods = Ok ids).
  { destruct A as (_ & _ & _ & _ & s & e & a & a' & first & last & P & _). unfold buildings, ids. destruct periods; [destruct i; discriminate P|reflexivity]. }
  rewrite B in H. cbn [bind] in H.
  assert (SP : exists pre post, ids = pre ++ b :: post /\ ~ In b pre /\ ~ In b post).
  { destruct A as (_ & _ & _ & N & s & e & a & a' & first & last & P & _). assert (I : In b ids) by (apply nth_error_In in P; apply (in_map fst) in P; exact P).
    destruct (in_split b ids I) as (pre & post & E). exists pre, post. split; [exact E|]. unfold ids in E. rewrite E in N. apply NoDup_remove in N. destruct N as [_ N].
    split; intros J; apply N; apply in_app_iff; auto. }
  destruct SP as (pre & post & E & N1 & N2).
  assert (H' : foldM (one_building z db table periods ids) (pre ++ b :: post) (mkOut [] []) = Ok o) by (rewrite <- E; exact H). clear H.
  rewrite fold_app in H'. destruct (foldM _ pre _) as [o1|] eqn:H1; [|discriminate]. cbn [bind foldM] in H'.
  destruct (one_building z db table periods ids o1 b) as [o2|] eqn:H2; [|discriminate]. cbn [bind] in H'.
  assert (O : forall l, (forall x, In x l -> In x ids) -> ~ In b l -> forall oa ob, foldM (one_building z db table periods ids) l oa = Ok ob -> untouched (S i) oa ob).
  { intros l J N oa ob F. apply (fold_inv (untouched (S i) oa)) in F; [exact F| |apply untouched_refl]. intros oc x od I G U.
    apply (untouched_trans _ oa oc od U). apply (building_other _ _ _ _ _ _ _ _ (S i) G). intros Q. injection Q as Q.
    assert (x = b); [|congruence].
    assert (PN : forall l x, In x l -> nth_error l (position x l) = Some x).
    { clear. induction l as [|y l IH]; intros x [].
      - subst. cbn. now rewrite Z.eqb_refl.
      - cbn. destruct (Z.eqb y x) eqn:E; [apply Z.eqb_eq in E; now subst|]. cbn. auto. }
    pose proof (PN ids x (J x I)) as P1. rewrite <- Q in P1.
    destruct A as (_ & _ & _ & _ & s & e & a & a' & first & last & P & _). unfold ids in P1. rewrite nth_error_map, P in P1. cbn in P1. congruence. }
  assert (I1 : forall x, In x pre -> In x ids) by (intros x I; rewrite E; apply in_app_iff; now left).
  assert (I2 : forall x, In x post -> In x ids) by (intros x I; rewrite E; apply in_app_iff; right; now right).
  destruct (O pre I1 N1 _ _ H1) as [S1 M1]. destruct (O post I2 N2 _ _ H') as [S2 M2].
  unfold one_building in H2. apply own_views in H2. destruct H2 as (P & Q & U).
  assert (NE : matching db table <> []).
  { destruct A as (I & N & _). intros K. assert (J : In v (matching db table)); [|rewrite K in J; destruct J]. unfold matching. apply filter_In. split; [exact I|].
    apply occurs_iff. exists ""%string, ""%string. rewrite N. cbn [String.append]. clear. induction table as [|c s IH]; [reflexivity|]. cbn [String.append]. now f_equal. }
  split; [|split].
  - intros k. rewrite S2, (P (S i) k), S1, Nat.eqb_refl. reflexivity.
  - intros x L. destruct (Q NE x L) as (md & M & D). exists md. split; [congruence|exact D].
  - intros S0. rewrite M2, (U S0), M1. reflexivity.
Qed.
End Own.
