(** Proofs about joining the blocks of a GREEND house (C110). *)
From Coq Require Import String Permutation Sorted Lia.
From Verif Require Import Base GHouseModel GHouseSpec.
Import List. Open Scope list_scope. Open Scope nat_scope.

Lemma cell_map {A} (g : string -> option A) c : forall cols, In c cols -> cell cols (map g cols) c = g c.
Proof. induction cols as [|k cols IH]; intros I; [destruct I|]. cbn [cell map]. destruct (string_dec k c) as [->|N]; [reflexivity|]. apply IH. destruct I; [congruence|assumption]. Qed.
Lemma cell_some {A} c (v : A) : forall cols values, cell cols values c = Some v -> exists i, nth_error cols i = Some c /\ nth_error values i = Some (Some v).
Proof.
  induction cols as [|k cols IH]; intros values H; [discriminate|]. destruct values as [|x values]; [discriminate|]. cbn [cell] in H. destruct (string_dec k c) as [->|N]; [subst x; exists 0; split; reflexivity|].
  destruct (IH _ H) as [i I]. exists (S i). exact I.
Qed.
Lemma cell_nth {A} c (v : option A) : forall cols values i, NoDup cols -> nth_error cols i = Some c -> nth_error values i = Some v -> cell cols values c = v.
Proof.
  induction cols as [|k cols IH]; intros values i ND H1 H2; [destruct i; discriminate|]. inversion ND; subst. destruct i as [|i], values as [|x values]; try discriminate; cbn [nth_error] in H1, H2; cbn [cell].
  - injection H1 as ->. injection H2 as ->. destruct (string_dec c c); [reflexivity|congruence].
  - destruct (string_dec k c) as [->|N]; [exfalso; apply H3; eapply nth_error_In; exact H1|]. eapply IH; eauto.
Qed.
Lemma add_ok : forall new known, NoDup known -> NoDup (add_columns known new) /\ forall c, In c (add_columns known new) <-> In c known \/ In c new.
Proof.
  induction new as [|k new IH]; intros known ND; cbn [add_columns]; [split; [exact ND|intros c; cbn; tauto]|]. destruct (in_dec string_dec k known) as [I|I].
  - destruct (IH known ND) as [A1 A2]. split; [exact A1|]. intros c. rewrite A2. cbn [In]. split; [tauto|]. intros [X|[<-|X]]; tauto.
  - assert (ND' : NoDup (known ++ [k])). { apply (Permutation_NoDup (Permutation_cons_append known k)). constructor; assumption. }
    destruct (IH _ ND') as [A1 A2]. split; [exact A1|]. intros c. rewrite A2, in_app_iff. cbn [In]. tauto.
Qed.
Lemma all_ok {A} (fs : list (frame A)) : columns_of fs (all_columns fs).
Proof.
  unfold all_columns, columns_of. assert (G : forall fs known, NoDup known -> NoDup (fold_left (fun known (f : frame A) => add_columns known (f_cols f)) fs known) /\ forall c, In c (fold_left (fun known (f : frame A) => add_columns known (f_cols f)) fs known) <-> In c known \/ exists f, In f fs /\ In c (f_cols f)).
  { clear fs. induction fs as [|f fs IH]; intros known ND; cbn [fold_left]; [split; [exact ND|]; intros c; split; [tauto|]; intros [X|(f & [] & _)]; exact X|].
    destruct (add_ok (f_cols f) known ND) as [A1 A2]. destruct (IH _ A1) as [B1 B2]. split; [exact B1|]. intros c. rewrite B2, A2. split.
    - intros [[X|X]|(g & I & X)]; [left; exact X|right; exists f; split; [left; reflexivity|exact X]|right; exists g; split; [right; exact I|exact X]].
    - intros [X|(g & [<-|I] & X)]; [tauto|tauto|]. right. exists g. split; assumption. }
  destruct (G fs [] (NoDup_nil _)) as [A1 A2]. split; [exact A1|]. intros c. rewrite A2. cbn [In]. tauto.
Qed.
Lemma first_in {B} (r : Z * B) : forall rows seen, In r (first_of_each seen rows) -> In r rows.
Proof. induction rows as [|x rows IH]; intros seen I; [destruct I|]. cbn [first_of_each] in I. destruct (in_dec Z.eq_dec (fst x) seen); [right; eapply IH; exact I|]. destruct I as [->|I]; [left; reflexivity|right; eapply IH; exact I]. Qed.
Lemma first_times {B} t : forall (rows : list (Z * B)) seen, In t (map fst (first_of_each seen rows)) <-> In t (map fst rows) /\ ~ In t seen.
Proof.
  induction rows as [|x rows IH]; intros seen; cbn [first_of_each map In]; [tauto|]. destruct (in_dec Z.eq_dec (fst x) seen) as [I|I].
  - rewrite IH. split; [tauto|]. intros [[<-|X] N]; tauto.
  - cbn [map In]. rewrite IH. cbn [In]. split; [intros [<-|[X N]]; tauto|]. intros [[X|X] N]; [tauto|]. destruct (Z.eq_dec (fst x) t); tauto.
Qed.
Lemma first_sorted {B} : forall (rows : list (Z * B)) seen, StronglySorted Z.le (map fst rows) -> StronglySorted Z.lt (map fst (first_of_each seen rows)).
Proof.
  induction rows as [|x rows IH]; intros seen H; [constructor|]. cbn [map] in H. inversion H as [|? ? SS FA]; subst. cbn [first_of_each]. destruct (in_dec Z.eq_dec (fst x) seen); [apply IH, SS|]. cbn [map]. constructor; [apply IH, SS|].
  apply Forall_forall. intros t I. apply first_times in I as [I N]. rewrite Forall_forall in FA. specialize (FA t I). assert (fst x <> t) by (intros <-; apply N; left; reflexivity). lia.
Qed.
Lemma first_all {B} (r : Z * B) : forall rows seen, NoDup (map fst rows) -> ~ In (fst r) seen -> In r rows -> In r (first_of_each seen rows).
Proof.
  induction rows as [|x rows IH]; intros seen ND N I; [destruct I|]. cbn [map] in ND. inversion ND; subst. cbn [first_of_each]. destruct I as [->|I].
  - destruct (in_dec Z.eq_dec (fst r) seen); [contradiction|left; reflexivity].
  - destruct (in_dec Z.eq_dec (fst x) seen); [apply IH; assumption|]. right. apply IH; [assumption| |assumption]. intros [E|E]; [|contradiction]. apply H1. rewrite E. apply in_map. exact I.
Qed.
Lemma combine_nth {B C} : forall (l : list B) (l' : list C) i x y, nth_error l i = Some x -> nth_error l' i = Some y -> nth_error (combine l l') i = Some (x, y).
Proof. induction l as [|a l IH]; intros [|b l'] [|i] x y H1 H2; try discriminate; cbn in *; [congruence|]. apply IH; assumption. Qed.
Lemma seq_nth_error : forall n s i, i < n -> nth_error (seq s n) i = Some (s + i).
Proof. induction n as [|n IH]; intros s i H; [lia|]. destruct i; cbn [seq nth_error]; [f_equal; lia|]. rewrite IH by lia. f_equal. lia. Qed.

(** The rows that are kept. *)
Definition joined {A} (fs : list (frame A)) : list (Z * list (option A)) :=
  flat_map (fun f => map (fun r => (fst r, map (cell (f_cols f) (snd r)) (all_columns fs))) (f_rows f)) fs.
Lemma joined_times {A} (fs : list (frame A)) : map fst (joined fs) = times fs.
Proof.
  unfold joined, times. generalize (all_columns fs). intros cols. induction fs as [|f fs IH]; [reflexivity|]. cbn [flat_map]. rewrite map_app, IH, map_map. reflexivity.
Qed.
Definition kept {A} (srt : list (Z * list (option A)) -> list (Z * list (option A))) (fs : list (frame A)) : list (Z * list (option A)) := first_of_each [] (srt (joined fs)).
Definition table_of {A} srt (fs : list (frame A)) (c : string) : list (Z * option A) := map (fun r => (fst r, cell (all_columns fs) (snd r) c)) (kept srt fs).
Lemma tables_eq {A} srt (fs : list (frame A)) : fs <> [] -> house_tables srt fs = Ok (combine (seq 1 (List.length (all_columns fs))) (map (table_of srt fs) (all_columns fs))).
Proof. intros N. destruct fs; [congruence|]. reflexivity. Qed.
Lemma kept_from {A} srt (fs : list (frame A)) r : sorts srt fs -> fs <> [] -> In r (kept srt fs) -> exists f q, In f fs /\ In q (f_rows f) /\ fst q = fst r /\ forall c, In c (all_columns fs) -> cell (all_columns fs) (snd r) c = cell (f_cols f) (snd q) c.
Proof.
  intros SO N I. destruct (SO (mkFrame (all_columns fs) (joined fs))) as [P _]; [destruct fs; [congruence|reflexivity]|]. cbn [f_rows] in P. apply first_in in I. apply (Permutation_in _ P) in I. unfold joined in I. apply in_flat_map in I as (f & If & I). apply in_map_iff in I as (q & <- & Iq).
  exists f, q. repeat split; try assumption. intros c Ic. cbn [snd]. apply cell_map, Ic.
Qed.
Lemma tables_ok {A} srt (fs : list (frame A)) : fs <> [] -> Forall rectangular fs -> sorts srt fs ->
  exists cols ts, house_tables srt fs = Ok ts /\ columns_of fs cols /\ List.length ts = List.length cols /\
  forall i c, nth_error cols i = Some c -> exists rows, nth_error ts i = Some (S i, rows) /\
    StronglySorted Z.lt (map fst rows) /\ (forall t, In t (map fst rows) <-> In t (times fs)) /\
    (forall t v, In (t, Some v) rows -> exists f, In f fs /\ has_value f c t (Some v)) /\
    (NoDup (times fs) -> forall f t v, In f fs -> has_value f c t v -> In (t, v) rows).
Proof.
  intros N RE SO. exists (all_columns fs), (combine (seq 1 (List.length (all_columns fs))) (map (table_of srt fs) (all_columns fs))). split; [apply tables_eq, N|]. split; [apply all_ok|]. split; [rewrite combine_length, seq_length, map_length; lia|].
  intros i c H. exists (table_of srt fs c). assert (L : i < List.length (all_columns fs)) by (apply nth_error_Some; congruence). assert (IC : In c (all_columns fs)) by (eapply nth_error_In; exact H).
  destruct (SO (mkFrame (all_columns fs) (joined fs))) as [P SS]; [destruct fs; [congruence|reflexivity]|]. cbn [f_rows] in P, SS.
  assert (TK : map fst (table_of srt fs c) = map fst (kept srt fs)) by (unfold table_of; rewrite map_map; reflexivity).
  split; [apply combine_nth; [apply (seq_nth_error _ 1 i L)|rewrite nth_error_map, H; reflexivity]|]. split; [rewrite TK; apply first_sorted, SS|]. split; [|split].
  - intros t. rewrite TK. unfold kept. rewrite first_times, <- joined_times. cbn [In]. split; [intros [I _]; eapply Permutation_in; [apply Permutation_map, P|exact I]|]. intros I. split; [|tauto]. eapply Permutation_in; [apply Permutation_sym, Permutation_map, P|exact I].
  - intros t v I. unfold table_of in I. apply in_map_iff in I as (r & E & I). injection E as E1 E2. destruct (kept_from srt fs r SO N I) as (f & q & If & Iq & Eq & C). rewrite (C c IC) in E2. apply cell_some in E2 as (k & K1 & K2). exists f. split; [exact If|]. exists q, k. repeat split; try assumption. congruence.
  - intros ND f t v If (r & k & Ir & Et & K1 & K2). unfold table_of. apply in_map_iff. exists (t, map (cell (f_cols f) (snd r)) (all_columns fs)). cbn [fst snd]. split.
    + f_equal. rewrite cell_map by exact IC. rewrite Forall_forall in RE. eapply cell_nth; [apply (RE f If)|exact K1|exact K2].
    + apply first_all; [|tauto|].
      * apply (Permutation_NoDup (Permutation_sym (Permutation_map fst P))). rewrite joined_times. exact ND.
      * apply (Permutation_in _ (Permutation_sym P)). unfold joined. apply in_flat_map. exists f. split; [exact If|]. apply in_map_iff. exists r. split; [rewrite Et; reflexivity|exact Ir].
Qed.
Lemma sorted_unique {B} (l : list (Z * B)) x y : StronglySorted Z.lt (map fst l) -> In x l -> In y l -> fst x = fst y -> x = y.
Proof.
  induction l as [|a l IH]; intros SS I J E; [destruct I|]. cbn [map] in SS. inversion SS as [|? ? S1 FA]; subst. rewrite Forall_forall in FA. destruct I as [->|I], J as [->|J]; [reflexivity| | |apply IH; assumption].
  - specialize (FA (fst y) (in_map fst l y J)). lia.
  - specialize (FA (fst x) (in_map fst l x I)). lia.
Qed.
Lemma not_joined {A} srt (fs : list (frame A)) ts i j c d rows rows' t v w : fs <> [] -> sorts srt fs -> house_tables srt fs = Ok ts ->
  nth_error (all_columns fs) i = Some c -> nth_error (all_columns fs) j = Some d -> (forall f, In f fs -> ~ (In c (f_cols f) /\ In d (f_cols f))) ->
  nth_error ts i = Some (S i, rows) -> nth_error ts j = Some (S j, rows') -> In (t, Some v) rows -> ~ In (t, Some w) rows'.
Proof.
  intros N SO E Hc Hd NB Ti Tj I J. rewrite (tables_eq srt fs N) in E. injection E as <-.
  assert (Li : i < List.length (all_columns fs)) by (apply nth_error_Some; congruence). assert (Lj : j < List.length (all_columns fs)) by (apply nth_error_Some; congruence).
  rewrite (combine_nth _ _ i (S i) (table_of srt fs c)) in Ti; [|apply (seq_nth_error _ 1 i Li)|rewrite nth_error_map, Hc; reflexivity]. rewrite (combine_nth _ _ j (S j) (table_of srt fs d)) in Tj; [|apply (seq_nth_error _ 1 j Lj)|rewrite nth_error_map, Hd; reflexivity]. injection Ti as <-. injection Tj as <-.
  unfold table_of in I, J. apply in_map_iff in I as (r & E1 & I). apply in_map_iff in J as (q & E2 & J). injection E1 as E1 V1. injection E2 as E2 V2.
  destruct (SO (mkFrame (all_columns fs) (joined fs))) as [P SS]; [destruct fs; [congruence|reflexivity]|]. cbn [f_rows] in P, SS. assert (EQ : r = q) by (apply (sorted_unique (kept srt fs)); [apply first_sorted, SS|exact I|exact J|congruence]). subst q.
  destruct (kept_from srt fs r SO N I) as (f & q & If & Iq & Eq & C). rewrite (C c) in V1 by (eapply nth_error_In; exact Hc). rewrite (C d) in V2 by (eapply nth_error_In; exact Hd). apply cell_some in V1 as (k & K1 & _). apply cell_some in V2 as (k' & K2 & _).
  apply (NB f If). split; eapply nth_error_In; eassumption.
Qed.
