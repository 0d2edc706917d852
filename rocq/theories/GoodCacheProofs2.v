(** Lemmas about good sections answered with the cache: the object and the node. *)
From Coq Require Import Sorted Permutation.
From Verif Require Import Base TimeFrameModel TimeFrameSpec TimeFrameProofs SortLib StoreModel ResultsModel ResultsSpec ResultsProofs
  GoodSectionsModel GoodCacheModel GoodCacheSpec GoodCacheProofs.
From Verif Require CacheModel.
Import List. Open Scope Z_scope.

(** ** combined *)

Lemma rows_loop msp : forall rows done ep,
  combine_loop msp done ep rows = match combine_rows msp done ep rows with (Ok ep', d) => Ok (d, ep') | (Err e, _) => Err e end.
Proof.
  induction rows as [|r rest IH]; intros done ep; [reflexivity|]. cbn [combine_loop combine_rows].
  destruct (combine_step msp done ep r) as [[done' secs]|e]; cbn [bind]; [apply IH|reflexivity].
Qed.

Lemma effect_combined msp data : fst (combined_effect msp data) = (do p <- gs_combined msp data; Ok (fst p)).
Proof.
  unfold combined_effect, gs_combined. rewrite rows_loop. destruct (combine_rows msp [] None data) as [[ep|e] d]; cbn [bind fst]; [|reflexivity].
  destruct (last_opt (all_sections d)) as [l|]; [|reflexivity].
  destruct (tf_end (set_incl l true)); [reflexivity|]. destruct (set_end (set_incl l true) ep); reflexivity.
Qed.

Lemma last_set {A} (v : list A) x y : last_opt v = Some x -> last_opt (set_last v y) = Some y.
Proof.
  revert x. induction v as [|a [|b r] IH]; intros x H; [discriminate|reflexivity|].
  change (set_last (a :: b :: r) y) with (a :: set_last (b :: r) y).
  assert (N : exists c s, set_last (b :: r) y = c :: s) by (destruct r; eexists; eexists; reflexivity).
  destruct N as (c & s & N). change (last_opt (a :: b :: r)) with (last_opt (b :: r)) in H. specialize (IH x H). rewrite N in *. exact IH.
Qed.
Lemma set_set {A} (v : list A) x y : set_last (set_last v x) y = set_last v y.
Proof.
  induction v as [|a [|b r] IH]; [reflexivity|reflexivity|].
  change (set_last (a :: b :: r) x) with (a :: set_last (b :: r) x). change (set_last (a :: b :: r) y) with (a :: set_last (b :: r) y).
  rewrite <- IH. destruct (set_last (b :: r) x) eqn:E; [destruct r; discriminate|]. reflexivity.
Qed.

Lemma set_end_again t o u : set_end t o = Ok u -> set_end u o = Ok u /\ tf_incl u = tf_incl t.
Proof.
  unfold set_end. destruct o as [e|]; [|intros [= <-]; split; reflexivity].
  destruct (tf_start t) as [s|] eqn:E.
  - destruct (e <=? s) eqn:L; [discriminate|]. intros [= <-].
    replace (tf_start {| tf_start_ := tf_start_ t; tf_end_ := Some e; tf_enabled := tf_enabled t; tf_empty := tf_empty t; tf_incl := tf_incl t |}) with (tf_start t) by reflexivity.
    rewrite E, L. split; reflexivity.
  - intros [= <-].
    replace (tf_start {| tf_start_ := tf_start_ t; tf_end_ := Some e; tf_enabled := tf_enabled t; tf_empty := tf_empty t; tf_incl := tf_incl t |}) with (tf_start t) by reflexivity.
    rewrite E. split; reflexivity.
Qed.
Lemma incl_same t : tf_incl t = true -> set_incl t true = t.
Proof. destruct t; cbn. intros ->. reflexivity. Qed.

(** The effect on a table with one row. *)
Lemma effect_one msp (r : row (list tf)) : combined_effect msp [r] =
  match last_opt (r_val r) with
  | None => (Ok [], [r])
  | Some l =>
      match match tf_end (set_incl l true) with Some _ => Ok (set_incl l true) | None => set_end (set_incl l true) (r_end r) end with
      | Ok l2 => (Ok (set_last (r_val r) l2), [mkRow (r_start r) (r_end r) (set_last (r_val r) l2)])
      | Err e => (Err e, [mkRow (r_start r) (r_end r) (set_last (r_val r) (set_incl l true))])
      end
  end.
Proof.
  unfold combined_effect. cbn [combine_rows combine_step app]. unfold all_sections at 1. cbn [map concat r_val].
  rewrite app_nil_r. destruct (last_opt (r_val r)) as [l|] eqn:E; [|destruct r; reflexivity].
  assert (S : forall y, set_last_section [mkRow (r_start r) (r_end r) (r_val r)] y = [mkRow (r_start r) (r_end r) (set_last (r_val r) y)]) by reflexivity.
  assert (A : forall v : list tf, all_sections [mkRow (r_start r) (r_end r) v] = v) by (intros v; unfold all_sections; cbn; apply app_nil_r).
  destruct (tf_end (set_incl l true)) as [x|] eqn:T; [rewrite S, A; reflexivity|].
  destruct (set_end (set_incl l true) (r_end r)); rewrite S; [rewrite A|]; reflexivity.
Qed.

Lemma effect_again msp (r : row (list tf)) : fst (combined_effect msp (snd (combined_effect msp [r]))) = fst (combined_effect msp [r]).
Proof.
  rewrite effect_one. destruct (last_opt (r_val r)) as [l|] eqn:E; [|cbn [snd fst]; rewrite effect_one, E; reflexivity].
  destruct (tf_end (set_incl l true)) as [x|] eqn:T.
  - cbn [snd fst]. rewrite effect_one. cbn [r_val r_start r_end]. rewrite (last_set _ _ _ E).
    rewrite (incl_same (set_incl l true)) by reflexivity. rewrite T. cbn [fst]. now rewrite set_set.
  - destruct (set_end (set_incl l true) (r_end r)) as [l2|e] eqn:W; cbn [snd fst]; rewrite effect_one; cbn [r_val r_start r_end]; rewrite (last_set _ _ _ E).
    + destruct (set_end_again _ _ _ W) as [W1 W2]. rewrite (incl_same l2) by exact W2.
      destruct (tf_end l2); [cbn [fst]; now rewrite set_set|]. rewrite W1. cbn [fst]. now rewrite set_set.
    + rewrite (incl_same (set_incl l true)) by reflexivity. rewrite T, W. reflexivity.
Qed.

Lemma effect_frame msp (r : row (list tf)) : exists v, snd (combined_effect msp [r]) = [mkRow (r_start r) (r_end r) v].
Proof.
  rewrite effect_one. destruct (last_opt (r_val r)) as [l|]; [|destruct r; eexists; reflexivity].
  destruct (tf_end (set_incl l true)); [eexists; reflexivity|]. destruct (set_end (set_incl l true) (r_end r)); eexists; reflexivity.
Qed.

(** ** The node *)

Definition rebuilt (t : tf) : Prop := mk (tf_start t) (tf_end t) = Ok t.

Lemma mapM_forall {A B} (f : A -> res B) (P : B -> Prop) : (forall a b, f a = Ok b -> P b) -> forall l m, mapM f l = Ok m -> Forall P m.
Proof.
  intros H. induction l as [|a l IH]; intros m; cbn [mapM]; [intros [= <-]; constructor|].
  destruct (f a) as [b|] eqn:E; cbn [bind]; [|discriminate]. destruct (mapM f l) as [m'|]; cbn [bind]; [|discriminate].
  intros [= <-]. constructor; [exact (H _ _ E)|apply IH; reflexivity].
Qed.

Lemma found_rebuilt df msp look prev v : get_good_sections df msp look prev = Ok v -> Forall rebuilt v.
Proof.
  unfold get_good_sections. destruct (Nat.ltb _ 2); [intros [= <-]; constructor|].
  destruct (last_opt (map _ _)) as [lc|]; [|discriminate]. destruct (last_opt (valid_index df)) as [li|]; [|discriminate].
  destruct (look_gap look li) as [gap|]; cbn [bind]; [|discriminate].
  match goal with |- (let '(a, b) := ?X in _) = _ -> _ => destruct X as [st en] end.
  match goal with |- (if ?X then _ else _) = _ -> _ => destruct X end; [discriminate|].
  apply mapM_forall. intros p t E. destruct (mk_inv _ _ _ E) as [-> _]. unfold rebuilt. cbn. exact E.
Qed.

Definition from_chunks (cs : list (chunk bool)) (r : row (list tf)) : Prop :=
  exists ch, In ch cs /\ r_start r = tf_start (c_tf ch) /\ r_end r = tf_end (c_tf ch) /\ Forall rebuilt (r_val r).
Definition tidy (d : table (list tf)) : Prop := Forall row_ordered d /\ rows_disjoint d /\ sorted_by_start d.

Lemma fold_tidy msp all : (forall ch, In ch all -> exists a b, bounded (c_tf ch) a b) -> forall cs st st',
  incl cs all -> tidy (snd st) -> Forall (from_chunks all) (snd st) -> foldM (gs_process_chunk msp) cs st = Ok st' ->
  tidy (snd st') /\ Forall (from_chunks all) (snd st').
Proof.
  intros HB. induction cs as [|ch cs IH]; intros [prev d] st' I T F; cbn [foldM]; [intros [= <-]; auto|].
  assert (Ich : In ch all) by (apply I; left; reflexivity).
  unfold gs_process_chunk at 1. destruct (get_good_sections (c_rows ch) msp (c_look ch) prev) as [secs|] eqn:G; cbn [bind]; [|discriminate].
  destruct (last_opt secs) as [l|].
  - destruct (HB ch Ich) as (a & b & (B1 & B2 & B3 & B4)). destruct T as (T1 & T2 & T3).
    assert (U : usable (c_tf ch)). { split; [exact B3|]. intros x y X Y. congruence. }
    destruct (append_outcome d (c_tf ch) secs T1 T2 U) as [(d' & E & Hp & Hs & Hd & Ho & _)|(E & _)]; rewrite E; cbn [bind]; [|discriminate].
    apply IH.
    + intros x X. apply I. right. exact X.
    + split; [|split]; assumption.
    + cbn [snd]. eapply Permutation_Forall; [apply Permutation_sym; exact Hp|]. constructor; [|exact F].
      exists ch. split; [exact Ich|]. split; [reflexivity|]. split; [reflexivity|]. exact (found_rebuilt _ _ _ _ _ G).
  - apply IH; [intros x X; apply I; right; exact X|exact T|exact F].
Qed.

Lemma process_tidy msp g d : (forall ch, In ch (fst g) -> exists a b, bounded (c_tf ch) a b) -> gs_process msp g = Ok d ->
  tidy d /\ Forall (from_chunks (fst g)) d.
Proof.
  intros HB. unfold gs_process. destruct (foldM (gs_process_chunk msp) (fst g) (false, [])) as [st|] eqn:E; cbn [bind]; [|discriminate].
  destruct (snd g); [discriminate|]. intros [= <-]. apply (fold_tidy msp (fst g) HB (fst g) (false, [])); [intros x X; exact X| |constructor|exact E].
  cbn [snd]. split; [constructor|]. split; [intros j k r q i Hj; destruct j; discriminate|constructor].
Qed.

(** One chunk: at most one row, and then with sections. *)
Lemma process_one msp ch e d : gs_process msp ([ch], e) = Ok d ->
  d = [] \/ exists v, v <> [] /\ d = [mkRow (tf_start (c_tf ch)) (tf_end (c_tf ch)) v].
Proof.
  unfold gs_process. cbn [fst snd foldM]. unfold gs_process_chunk.
  destruct (get_good_sections (c_rows ch) msp (c_look ch) false) as [secs|]; cbn [bind]; [|discriminate].
  destruct (last_opt secs) as [l|] eqn:L; cbn [bind snd].
  - unfold results_append. cbn [append_check bind app sort_by insert_by].
    match goal with |- context [has_dup ?x] => change (has_dup x) with false end. cbn [bind snd]. destruct e; [discriminate|]. intros [= <-]. right. exists secs.
    split; [destruct secs; [discriminate|congruence]|reflexivity].
  - destruct e; [discriminate|]. intros [= <-]. left. reflexivity.
Qed.

Lemma update_nil {A} (d : table A) : Forall row_ordered d -> rows_disjoint d -> sorted_by_start d -> results_update [] d = (d, None).
Proof.
  intros O D S. destruct d as [|r d]; [reflexivity|]. destruct (update_outcome [] (r :: d)) as (d' & P & S' & [(E & D' & O')|(_ & [N|N])]); [discriminate| | |].
  - rewrite E. f_equal. apply (sorted_unique r_start).
    + apply kle_start. exact S'.
    + apply kle_start. exact S.
    + exact P.
    + apply (disjoint_unique d' O' D').
  - exfalso. exact (N D).
  - exfalso. exact (N O).
Qed.
