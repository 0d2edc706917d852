(** Lemmas on the download of Dataport: all stretches, views and buildings. *)
From Coq Require Import String QArith Lia.
From Verif Require Import Base LocalModel LocalSpec LocalProofs DownloadModel DownloadSpec DownloadProofs DownloadProofs2.
Import List. Open Scope list_scope. Open Scope nat_scope.

Lemma fold_app : forall {A B} (f : B -> A -> res B) l1 l2 b, foldM f (l1 ++ l2) b = do b' <- foldM f l1 b; foldM f l2 b'.
Proof. intros A B f l1. induction l1 as [|x r IH]; intros l2 b; cbn [foldM List.app bind]; [reflexivity|]. destruct (f b x); cbn [bind]; [apply IH|reflexivity]. Qed.
Lemma fold_inv : forall {A B} (P : B -> Prop) (f : B -> A -> res B) l, (forall b x b', In x l -> f b x = Ok b' -> P b -> P b') ->
  forall b b', foldM f l b = Ok b' -> P b -> P b'.
Proof.
  intros A B P f l. induction l as [|x r IH]; intros H b b' E Q; cbn [foldM] in E; [injection E as <-; exact Q|].
  destruct (f b x) as [b1|] eqn:F; [|discriminate]. cbn [bind] in E. apply (IH (fun c y c' I => H c y c' (or_intror I)) b1 b' E). apply (H b x b1); auto. now left.
Qed.

(** Another building. *)
Definition untouched (n : nat) (o o' : out) : Prop := (forall k, stored o' n k = stored o n k) /\ metadata o' n = metadata o n.
Lemma untouched_refl : forall n o, untouched n o o. Proof. split; reflexivity. Qed.
Lemma untouched_trans : forall n a b c, untouched n a b -> untouched n b c -> untouched n a c.
Proof. intros n a b c [A B] [C D]. split; [intros k; rewrite C; apply A|congruence]. Qed.
Lemma feed_other : forall cs n m rs s s' n' k, feed_columns n m cs rs s = Ok s' -> n' <> n -> rows_at (f_tables s') (n', k) = rows_at (f_tables s) (n', k).
Proof.
  induction cs as [|c cs IH]; intros n m rs s s' n' k H N; cbn [feed_columns] in H; [injection H as <-; reflexivity|].
  assert (P : forall rs, rows_at (put (f_tables s) (n, m) rs) (n', k) = rows_at (f_tables s) (n', k)).
  { intros rs'. rewrite rows_put. unfold key_eqb. cbn [fst snd]. destruct (n =? n') eqn:E; [apply Nat.eqb_eq in E; congruence|]. apply app_nil_r. }
  destruct (existsb _ rs && negb _); [|now apply (IH n m rs)].
  destruct (String.eqb c "use"); [apply IH with (n' := n') (k := k) in H; [|exact N]; rewrite H; apply P|].
  destruct (dget String.eqb feed_mapping c) as [[[ty|] room]|]; try discriminate H. apply IH with (n' := n') (k := k) in H; [|exact N]. rewrite H. apply P.
Qed.
Lemma hdf_other : forall z table cs rs n b o o' n', to_hdf z table cs rs n b o = Ok o' -> n' <> n -> untouched n' o o'.
Proof.
  intros z table cs rs n b o o' n' H N. unfold to_hdf in H. destruct (mapM _ _) as [us|]; [|discriminate]. cbn [bind] in H.
  destruct (feed_columns _ _ _ _ _) as [s|] eqn:F; [|discriminate]. cbn [bind] in H. injection H as <-. split.
  - intros k. rewrite !stored_rows. cbn [o_tables]. now apply (feed_other _ _ _ _ _ _ n' k F).
  - rewrite !metadata_dget. cbn [o_yaml]. rewrite (dget_dset Nat.eqb Nat.eqb_eq). destruct (n =? n') eqn:E; [apply Nat.eqb_eq in E; congruence|reflexivity].
Qed.
Lemma chunk_other : forall z db table ids b o ch o' n', one_chunk z db table ids b o ch = Ok o' -> n' <> S (position b ids) -> untouched n' o o'.
Proof. intros z db table ids b o ch o' n' H N. unfold one_chunk in H. destruct (find _ _); [|discriminate]. exact (hdf_other _ _ _ _ _ _ _ _ _ H N). Qed.
Lemma view_other : forall z db table periods ids b o o' n', one_view z db table periods ids b o = Ok o' -> n' <> S (position b ids) -> untouched n' o o'.
Proof.
  intros z db table periods ids b o o' n' H N. unfold one_view in H. destruct (d_span _ _ _) as [[first last]|]; [|injection H as <-; apply untouched_refl].
  destruct (requested _ _ _) as [[[s|] [e|]]|]; cbn [bind] in H; try discriminate H. destruct (Z.ltb e s); [injection H as <-; apply untouched_refl|].
  destruct (chunks _ _ _) as [chs|]; [|discriminate]. cbn [bind] in H.
  apply (fold_inv (untouched n' o)) in H; [exact H| |apply untouched_refl]. intros o1 x o2 _ E U. apply (untouched_trans n' o o1 o2 U). exact (chunk_other _ _ _ _ _ _ _ _ _ E N).
Qed.
Lemma building_other : forall z db table periods ids b o o' n', one_building z db table periods ids o b = Ok o' -> n' <> S (position b ids) -> untouched n' o o'.
Proof.
  intros z db table periods ids b o o' n' H N. unfold one_building in H.
  apply (fold_inv (untouched n' o)) in H; [exact H| |apply untouched_refl]. intros o1 x o2 _ E U. apply (untouched_trans n' o o1 o2 U). exact (view_other _ _ _ _ _ _ _ _ _ E N).
Qed.
Lemma position_nth : forall ids i b, NoDup ids -> nth_error ids i = Some b -> position b ids = i.
Proof.
  induction ids as [|x r IH]; intros [|i] b N H; try discriminate; cbn [position].
  - injection H as ->. now rewrite Z.eqb_refl.
  - cbn in H. apply NoDup_cons_iff in N; destruct N as [A N']. destruct (Z.eqb x b) eqn:E; [|f_equal; now apply IH].
    apply Z.eqb_eq in E. subst x. apply nth_error_In in H. contradiction.
Qed.

(** The building's own stretches. *)
Definition all_parts (f : option Q -> option Q) (z : zone) (b : Z) (v : view) (L : list (Z * Z)) (k : nat) : list (Z * option Q) :=
  concat (map (fun x => part f (v_columns v) (taken z b (fst x) (snd x) (v_rows v)) k) L).
Definition described (n : nat) (b : Z) (z : zone) (v : view) (L : list (Z * Z)) (o : out) : Prop :=
  forall x, last_opt L = Some x -> exists md, metadata o n = Some md /\ describes n b (metered (v_columns v) (taken z b (fst x) (snd x) (v_rows v))) md.
Lemma last_opt_snoc : forall {A} (l : list A) x, last_opt (l ++ [x]) = Some x.
Proof. intros A l x. induction l as [|y [|y' r] IH]; auto. Qed.
Lemma stretches_fold : forall z db table ids b v L o o', regular z -> whole_zone z -> whole_rows v ->
  find (fun v => String.eqb (v_name v) table) (d_views db) = Some v ->
  Forall (fun x => whole (fst x) /\ whole (snd x)) L ->
  foldM (one_chunk z db table ids b) (map (fun x => (fst x, (snd x - sec)%Z)) L) o = Ok o' ->
  adds (S (position b ids)) (all_parts (scaled table) z b v L) o o' /\ described (S (position b ids)) b z v L o' /\ (L = [] -> o' = o).
Proof.
  intros z db table ids b v L o o' R ZW W F. revert o'. induction L as [|x L IH] using rev_ind; intros o' A H.
  - injection H as <-. split; [|split; [intros x Q; discriminate Q|reflexivity]]. intros n' k. unfold all_parts. cbn [map concat]. destruct (S (position b ids) =? n'); now rewrite app_nil_r.
  - rewrite map_app, fold_app in H. destruct (foldM _ (map _ L) o) as [o1|] eqn:E; [|discriminate]. cbn [bind map foldM] in H.
    destruct (one_chunk z db table ids b o1 (fst x, (snd x - sec)%Z)) as [o2|] eqn:G; [|discriminate]. cbn [bind] in H. injection H as <-.
    apply Forall_app in A. destruct A as [A1 A2]. apply Forall_cons_iff in A2. destruct A2 as [[W1 W2] _].
    destruct (IH o1 A1 eq_refl) as (B & _ & _). unfold one_chunk in G. rewrite F in G.
    apply hdf_ok in G; auto. destruct G as (C & D & _). split; [|split].
    + intros n' k. rewrite (C n' k), (B n' k), <- app_assoc. f_equal. destruct (S (position b ids) =? n'); [|reflexivity]. unfold all_parts. rewrite map_app, concat_app. cbn [map concat]. now rewrite app_nil_r.
    + intros y Y. rewrite last_opt_snoc in Y. injection Y as <-. exact D.
    + intros Q. destruct L; discriminate Q.
Qed.

Lemma found_view : forall db table v, In v (d_views db) -> v_name v = table -> NoDup (map v_name (d_views db)) ->
  find (fun v => String.eqb (v_name v) table) (d_views db) = Some v.
Proof.
  intros db table v I N D. destruct db as [vs sp]. cbn [d_views] in *. induction vs as [|w r IH]; [destruct I|]. cbn [find map] in *. apply NoDup_cons_iff in D; destruct D as [A D'].
  destruct (String.eqb (v_name w) table) eqn:E.
  - apply String.eqb_eq in E. destruct I as [->|I]; [reflexivity|]. exfalso. apply A. rewrite E, <- N. now apply in_map.
  - destruct I as [->|I]; [apply String.eqb_neq in E; congruence|]. now apply IH.
Qed.
Lemma dget_nodup : forall (periods : list (Z * period)) i b p, NoDup (map fst periods) -> nth_error periods i = Some (b, p) -> dget Z.eqb periods b = Some p.
Proof.
  induction periods as [|[b1 p1] r IH]; intros [|i] b p N H; try discriminate; cbn [dget map fst] in *.
  - injection H as -> ->. now rewrite Z.eqb_refl.
  - apply NoDup_cons_iff in N; destruct N as [A N']. destruct (Z.eqb b1 b) eqn:E; [|now apply (IH i)]. apply Z.eqb_eq in E. subst b1. destruct A. cbn [nth_error] in H. apply nth_error_In in H. apply (in_map fst) in H. exact H.
Qed.
Lemma span_kind : forall table, listed table compatible = true -> found_later "_1s" table = per_second table.
Proof.
  intros table H. unfold listed, compatible in H. apply existsb_exists in H. destruct H as (x & I & E). apply String.eqb_eq in E. subst x.
  cbn [In] in I. repeat (destruct I as [<-|I]; [reflexivity|]). destruct I.
Qed.
Lemma power_kind : forall table, listed table compatible = true -> found_later "_realpower_" table = real_power table.
Proof.
  intros table H. unfold listed, compatible in H. apply existsb_exists in H. destruct H as (x & I & E). apply String.eqb_eq in E. subst x.
  cbn [In] in I. repeat (destruct I as [<-|I]; [reflexivity|]). destruct I.
Qed.
