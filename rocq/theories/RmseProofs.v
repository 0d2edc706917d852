From Coq Require Import String Ascii QArith Reals Qreals Permutation Lra.
From Verif Require Import Base LabelModel LabelProofs RmseModel RmseSpec.
Import List. Open Scope list_scope. Open Scope nat_scope.

(** *** The error of a column *)
Lemma repeats_iff l : has_repeats l = false <-> NoDup l.
Proof.
  induction l as [|t l IH]; cbn [has_repeats]; [split; [constructor|reflexivity]|]. rewrite orb_false_iff, IH, NoDup_cons_iff. split; intros [A B]; (split; [|exact B]).
  - intros K. assert (existsb (Z.eqb t) l = true) by (apply existsb_exists; exists t; split; [exact K|apply Z.eqb_refl]). congruence.
  - apply not_true_iff_false. intros K. apply existsb_exists in K. destruct K as (x & K & E). apply Z.eqb_eq in E. now subst.
Qed.
Lemma both_other ix g u y rows : ~ In u ix -> both ix g ((u, y) :: rows) = both ix g rows.
Proof.
  revert g. induction ix as [|t ix IH]; intros [|x g] H; cbn [both]; try reflexivity. cbn [find fst].
  destruct (Z.eqb_spec u t) as [->|N]; [exfalso; apply H; now left|]. rewrite IH; [reflexivity|]. intros K. apply H. now right.
Qed.
Lemma both_same ix : forall g p, NoDup ix -> length p = length ix -> dropna (combine g p) = both ix g (combine ix p).
Proof.
  induction ix as [|t ix IH]; intros g p N L; destruct p as [|y p]; try discriminate.
  - destruct g; reflexivity.
  - destruct g as [|x g]; [reflexivity|]. inversion_clear N as [|? ? N1 N2]. cbn [combine both find fst]. rewrite Z.eqb_refl.
    rewrite both_other by exact N1. rewrite <- IH by (assumption || (cbn in L; lia)). cbn [dropna]. destruct x as [x|], y as [y|]; reflexivity.
Qed.
Lemma lookup_find t ix : forall c, lookup t ix c = match find (fun r => Z.eqb (fst r) t) (combine ix c) with Some (_, v) => v | None => None end.
Proof.
  induction ix as [|u ix IH]; intros [|v c]; cbn [lookup combine find]; try reflexivity. cbn [fst]. rewrite (Z.eqb_sym u t).
  destruct (Z.eqb t u); [reflexivity|apply IH].
Qed.
Lemma both_lookup ix ix' p : forall g, dropna (combine g (map (fun t => lookup t ix' p) ix)) = both ix g (combine ix' p).
Proof.
  induction ix as [|t ix IH]; intros [|x g]; cbn [map combine both dropna]; try reflexivity. rewrite lookup_find, <- IH.
  destruct x as [x|]; [|reflexivity]. destruct (find (fun r => Z.eqb (fst r) t) (combine ix' p)) as [[u [y|]]|]; reflexivity.
Qed.
Lemma reindexed ix g ix' p : NoDup ix' -> length p = length ix' ->
  exists p', reindex ix ix' p = Ok p' /\ dropna (combine g p') = both ix g (combine ix' p).
Proof.
  intros N L. unfold reindex. destruct (list_eq_dec _ _ _) as [->|_].
  - exists p. split; [reflexivity|]. now apply both_same.
  - rewrite (proj2 (repeats_iff ix') N). eexists. split; [reflexivity|]. apply both_lookup.
Qed.
Lemma squares_real l : Q2R (squares l) = sum_squares l.
Proof.
  induction l as [|[x y] l IH]; cbn [squares sum_squares]; [unfold Q2R; cbn; lra|].
  rewrite Q2R_plus, Q2R_mult, Q2R_minus, IH. reflexivity.
Qed.
Lemma sum_nonneg l : (0 <= sum_squares l)%R.
Proof. induction l as [|[x y] l IH]; cbn [sum_squares]; [lra|]. pose proof (Rle_0_sqr (Q2R x - Q2R y)) as K. unfold Rsqr in K. lra. Qed.
Lemma Q2R_nat n : Q2R (inject_Z (Z.of_nat n)) = INR n.
Proof. unfold Q2R, inject_Z. cbn [Qnum Qden]. rewrite INR_IZR_INZ. field. Qed.
Lemma rms_of_pairs l : l <> [] -> is_rms l (Some (sqrt (Q2R (squares l / inject_Z (Z.of_nat (length l)))))).
Proof.
  intros N. cbn [is_rms]. split; [exact N|]. assert (P : (0 < INR (length l))%R) by (apply lt_0_INR; destruct l; [congruence|cbn; lia]).
  rewrite Q2R_div.
  - rewrite squares_real, Q2R_nat. split; [apply sqrt_pos|]. pose proof (sum_nonneg l) as S0.
    rewrite sqrt_sqrt; [field; lra|]. apply Rmult_le_pos; [exact S0|]. left. now apply Rinv_0_lt_compat.
  - intros K. apply Qeq_eqR in K. rewrite Q2R_nat in K. unfold Q2R in K. cbn in K. lra.
Qed.
Lemma error_ok ix g ix' p : NoDup ix' -> length p = length ix' -> exists e, column_error ix g ix' p = Ok e /\ is_rms (both ix g (combine ix' p)) e.
Proof.
  intros N L. destruct (reindexed ix g ix' p N L) as (p' & E & D). unfold column_error. rewrite E. cbn [bind]. rewrite <- D.
  destruct (dropna (combine g p')) as [|a r] eqn:K; [exists None; now split|]. eexists. split; [reflexivity|]. apply rms_of_pairs. discriminate.
Qed.

(** *** The loop over the columns *)
Notation columns := (list (column * list (option Q))).
Fixpoint labels (pretty : bool) (gts : columns) : bool * list column :=
  match gts with
  | [] => (pretty, [])
  | (app, _) :: r =>
      let '(pretty, l) := if pretty then match label_of app with Ok s => (true, Name s) | Err _ => (false, app) end else (false, app) in
      (fst (labels pretty r), l :: snd (labels pretty r))
  end.
Definition entries (gts : columns) (ls : list column) (es : list (option R)) : list entry := combine (combine (map fst gts) ls) es.
Definition errors ix ix' (gts preds : columns) (es : list (option R)) : Prop :=
  Forall2 (fun gp e => is_rms (both ix (snd (fst gp)) (combine ix' (snd (snd gp)))) e) (combine gts preds) es.
Lemma loop_run ix ix' : ix' <> [] -> NoDup ix' -> forall gts pretty preds, length preds = length gts ->
  Forall (fun c => length (snd c) = length ix') preds ->
  exists es, loop ix ix' pretty gts preds = Ok (fst (labels pretty gts), entries gts (snd (labels pretty gts)) es) /\ errors ix ix' gts preds es.
Proof.
  intros NE N. induction gts as [|[app g] gts IH]; intros pretty preds L F; cbn [loop labels].
  - destruct preds; [|discriminate]. exists []. split; [reflexivity|constructor].
  - destruct preds as [|[c p] preds]; [discriminate|]. apply Forall_cons_iff in F. destruct F as [Fp F]. cbn [snd] in Fp.
    set (x := if pretty then _ else _). destruct x as [pretty' l]. destruct (error_ok ix g ix' p N Fp) as (e & E & He).
    destruct (IH pretty' preds ltac:(cbn in L; lia) F) as (es & R & Hes).
    destruct ix' as [|t0 ix']; [congruence|]. rewrite E. cbn [bind]. rewrite R. cbn [bind fst snd]. exists (e :: es). split; [reflexivity|].
    constructor; [exact He|exact Hes].
Qed.
Lemma labels_length gts : forall pretty, length (snd (labels pretty gts)) = length gts.
Proof.
  induction gts as [|[app g] gts IH]; intros pretty; cbn [labels]; [reflexivity|]. set (x := if pretty then _ else _). destruct x as [q l]. cbn [snd length]. now rewrite IH.
Qed.
Lemma labels_plain gts : labels false gts = (false, map fst gts).
Proof. induction gts as [|[app g] gts IH]; cbn [labels map fst]; [reflexivity|]. now rewrite IH. Qed.

(** *** The dictionary *)
Lemma same_iff a b : same a b = true <-> identity a = identity b.
Proof.
  destruct a as [m|s], b as [n|t]; cbn [same identity]; try (split; discriminate).
  - rewrite !andb_true_iff, !Z.eqb_eq, String.eqb_eq. split; [intros [[-> ->] ->]; reflexivity|]. intros [= -> -> ->]. auto.
  - rewrite String.eqb_eq. split; [now intros ->|congruence].
Qed.
Lemma dict_new k v d : ~ In (identity k) (map (fun x => identity (fst x)) d) -> dict_set k v d = d ++ [(k, v)].
Proof.
  induction d as [|[k' v'] d IH]; cbn [dict_set map fst app]; intros H; [reflexivity|]. destruct (same k k') eqn:E.
  - exfalso. apply H. left. symmetry. now apply same_iff.
  - rewrite IH; [reflexivity|]. intros K. apply H. now right.
Qed.
Lemma dict_all (es : list entry) : forall d, NoDup (map (fun x => identity (fst x)) d ++ map (fun e => identity (snd (fst e))) es) ->
  fold_left (fun d e => dict_set (snd (fst e)) (snd e) d) es d = d ++ map (fun e => (snd (fst e), snd e)) es.
Proof.
  induction es as [|e es IH]; intros d N; cbn [fold_left map]; [now rewrite app_nil_r|]. cbn [map] in N.
  rewrite dict_new.
  - rewrite IH; [now rewrite <- app_assoc|]. rewrite map_app, <- app_assoc. exact N.
  - apply NoDup_remove_2 in N. intros K. apply N. apply in_or_app. now left.
Qed.
Lemma entries_keys gts ls es : length ls = length gts -> length es = length gts ->
  map (fun e : entry => (snd (fst e), snd e)) (entries gts ls es) = combine ls es.
Proof.
  unfold entries. revert ls es. induction gts as [|[a g] gts IH]; intros [|l ls] [|e es] A B; try discriminate; cbn [map fst combine]; [reflexivity|].
  cbn [snd fst]. f_equal. apply IH; cbn in A, B; lia.
Qed.
Lemma entries_ids gts ls es : length ls = length gts -> length es = length gts -> map (fun e : entry => identity (snd (fst e))) (entries gts ls es) = map identity ls.
Proof.
  unfold entries. revert ls es. induction gts as [|[a g] gts IH]; intros [|l ls] [|e es] A B; try discriminate; cbn [map fst combine]; [reflexivity|].
  cbn [snd fst]. f_equal. apply IH; cbn in A, B; lia.
Qed.
Lemma errors_length ix ix' gts preds es : length preds = length gts -> errors ix ix' gts preds es -> length es = length gts.
Proof.
  unfold errors. intros L H. transitivity (length (combine gts preds)); [|rewrite combine_length; lia]. clear L.
  induction H as [|a b l l' _ H IH]; [reflexivity|]. cbn [length]. now rewrite IH.
Qed.

(** The table returned when no label is changed. *)
Theorem plain_run gt pred pretty : table pred -> length (cols pred) = length (cols gt) -> NoDup (index pred) -> index pred <> [] ->
  fst (labels pretty (cols gt)) = false -> NoDup (map identity (snd (labels pretty (cols gt)))) ->
  exists es, compute_rmse gt pred pretty = Ok (combine (snd (labels pretty (cols gt))) es) /\ errors (index gt) (index pred) (cols gt) (cols pred) es.
Proof.
  intros T L N NE EP ND. destruct (loop_run (index gt) (index pred) NE N (cols gt) pretty (cols pred) L T) as (es & E & H). exists es. split; [|exact H].
  unfold compute_rmse. rewrite E. cbn [bind fst snd]. rewrite EP. cbn [bind]. pose proof (errors_length _ _ _ _ _ L H) as Le.
  rewrite dict_all; cbn [map List.app].
  - rewrite entries_keys; [reflexivity|apply labels_length|exact Le].
  - rewrite entries_ids; [exact ND|apply labels_length|exact Le].
Qed.
