(** Proofs about filling the gaps of iAWE data (C112). *)
From Coq Require Import QArith Lia.
From Verif Require Import Base IaweModel IaweSpec.
Import List. Open Scope list_scope. Open Scope nat_scope.

Lemma at_some t x : forall index values, at_time index values t = Some x -> exists k, nth_error index k = Some t /\ nth_error values k = Some (Some x).
Proof.
  induction index as [|s index IH]; intros [|v values] H; try discriminate. cbn [at_time] in H. destruct (Z.eq_dec s t) as [->|N]; [subst v; exists 0; split; reflexivity|]. destruct (IH _ H) as [k K]. exists (S k). exact K.
Qed.
Lemma at_nth t v : forall index values k, NoDup index -> nth_error index k = Some t -> nth_error values k = Some v -> at_time index values t = v.
Proof.
  induction index as [|s index IH]; intros values k ND H1 H2; [destruct k; discriminate|]. inversion ND; subst. destruct k as [|k], values as [|w values]; try discriminate; cbn [nth_error] in H1, H2; cbn [at_time].
  - injection H1 as ->. injection H2 as ->. destruct (Z.eq_dec t t); [reflexivity|congruence].
  - destruct (Z.eq_dec s t) as [->|N]; [exfalso; apply H3; eapply nth_error_In; exact H1|]. eapply IH; eauto.
Qed.
Lemma at_reading f c t : NoDup (fr_index f) -> forall x, at_time (fr_index f) (col_values c) t = Some x <-> reading f c t x.
Proof. intros ND x. split; [apply at_some|]. intros (k & K1 & K2). eapply at_nth; eassumption. Qed.
Lemma filled median idx f c i t : NoDup (fr_index f) -> nth_error idx i = Some t ->
  (forall x, reading f c t x -> nth_error (col_values (fill_column median idx f c)) i = Some (Some x)) /\
  ((forall x, ~ reading f c t x) -> nth_error (col_values (fill_column median idx f c)) i = Some (if is_power c then Some 0%Q else median (present (col_values c)))).
Proof.
  intros ND I. unfold fill_column, fillna, reindexed. cbn [col_values]. rewrite map_map, nth_error_map, I. cbn [option_map]. split.
  - intros x H. apply (at_reading f c t ND) in H. rewrite H. reflexivity.
  - intros N. destruct (at_time (fr_index f) (col_values c) t) as [x|] eqn:E; [|reflexivity]. exfalso. apply (N x), (at_reading f c t ND), E.
Qed.
Lemma missing_spec l : missing l = true <-> In None l.
Proof. unfold missing. rewrite existsb_exists. split; [intros ([x|] & I & E); [discriminate|exact I]|]. intros I. exists None. split; [exact I|reflexivity]. Qed.
Lemma present_nil l : present l = [] <-> forall x, ~ In (Some x) l.
Proof.
  unfold present. induction l as [|[y|] l IH]; cbn; [split; [intros _ x []|reflexivity]| |].
  - split; [discriminate|]. intros H. exfalso. apply (H y). left. reflexivity.
  - rewrite IH. split; intros H x; [intros [E|I]; [discriminate|exact (H x I)]|intros I; apply (H x); right; exact I].
Qed.
Lemma column_missing median idx f c : is_median median -> NoDup (fr_index f) ->
  (In None (col_values (fill_column median idx f c)) <-> is_power c = false /\ (forall x, ~ In (Some x) (col_values c)) /\ idx <> []).
Proof.
  intros ME ND. split.
  - intros I. apply In_nth_error in I as [i I]. assert (L : i < length idx) by (assert (X : nth_error (col_values (fill_column median idx f c)) i <> None) by congruence; apply nth_error_Some in X; unfold fill_column, fillna, reindexed in X; cbn [col_values] in X; rewrite !map_length in X; exact X).
    destruct (nth_error idx i) as [t|] eqn:T; [|apply nth_error_None in T; lia]. destruct (filled median idx f c i t ND T) as [P1 P2].
    destruct (at_time (fr_index f) (col_values c) t) as [x|] eqn:E; [apply (at_reading f c t ND) in E; rewrite (P1 x E) in I; discriminate|].
    rewrite P2 in I by (intros x H; apply (at_reading f c t ND) in H; congruence). destruct (is_power c); [discriminate|]. injection I as I. apply ME in I. split; [reflexivity|]. split; [apply present_nil, I|]. intros ->. cbn in L. lia.
  - intros (P & N & NE). destruct idx as [|t idx]; [congruence|]. destruct (filled median (t :: idx) f c 0 t ND eq_refl) as [_ P2]. rewrite P in P2. rewrite (proj2 (ME _)) in P2 by (apply present_nil, N). eapply nth_error_In. apply P2. intros x (k & _ & K). apply (N x). eapply nth_error_In. exact K.
Qed.
Lemma check_ok median idx f : is_median median -> NoDup (fr_index f) ->
  (fill_and_check median idx f = Err AssertionError <-> idx <> [] /\ exists c, In c (fr_columns f) /\ is_power c = false /\ forall x, ~ In (Some x) (col_values c)) /\
  (forall g, fill_and_check median idx f = Ok g -> g = reindex_fill_na median idx f) /\ (forall e, fill_and_check median idx f = Err e -> e = AssertionError).
Proof.
  intros ME ND. unfold fill_and_check. destruct (existsb (fun c => missing (col_values c)) (fr_columns (reindex_fill_na median idx f))) eqn:E.
  - split; [|split; [discriminate|intros e H; injection H as <-; reflexivity]]. split; [|reflexivity]. intros _. apply existsb_exists in E as (c & I & M1). cbn [reindex_fill_na fr_columns] in I. apply in_map_iff in I as (c0 & <- & I). apply missing_spec, (column_missing median idx f c0 ME ND) in M1 as (P & N & NE). split; [exact NE|]. exists c0. repeat split; assumption.
  - split; [|split; [intros g H; injection H as <-; reflexivity|discriminate]]. split; [discriminate|]. intros (NE & c & I & P & N). exfalso. assert (X : existsb (fun c => missing (col_values c)) (fr_columns (reindex_fill_na median idx f)) = true); [|congruence]. apply existsb_exists. exists (fill_column median idx f c). split; [apply in_map, I|]. apply missing_spec, column_missing; auto.
Qed.
Lemma map_rep {A B} (g : A -> B) x n : map g (repeat x n) = repeat (g x) n.
Proof. induction n as [|n IH]; [reflexivity|]. cbn. rewrite IH. reflexivity. Qed.
