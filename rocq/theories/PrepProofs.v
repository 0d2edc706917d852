From Coq Require Import Lia.
From Verif Require Import Base PrepModel PrepSpec.
Import List. Open Scope nat_scope.

(** ** Lists *)
Lemma set_nth_length {A} (l : list A) i v : length (set_nth l i v) = length l.
Proof. revert i; induction l as [|x l IH]; intros [|i]; cbn; [reflexivity..|]. now rewrite IH. Qed.
Lemma nth_set_eq {A} (l : list A) i v : i < length l -> nth_error (set_nth l i v) i = Some v.
Proof. revert i; induction l as [|x l IH]; intros [|i] H; cbn in *; [lia|lia|reflexivity|]. apply IH. lia. Qed.
Lemma nth_set_neq {A} (l : list A) i j v : i <> j -> nth_error (set_nth l i v) j = nth_error l j.
Proof. revert i j; induction l as [|x l IH]; intros [|i] [|j] H; cbn; try reflexivity; [congruence|]. apply IH. congruence. Qed.
Lemma nth_some_lt {A} (l : list A) i v : nth_error l i = Some v -> i < length l.
Proof. intros H. apply nth_error_Some. congruence. Qed.
Lemma nth_app_old {A} (l r : list A) i : i < length l -> nth_error (l ++ r) i = nth_error l i.
Proof. intros H. now apply nth_error_app1. Qed.
Lemma nth_app_new {A} (l : list A) v : nth_error (l ++ [v]) (length l) = Some v.
Proof. rewrite nth_error_app2 by lia. now rewrite Nat.sub_diag. Qed.
Lemma nth_app_inv {A} (l : list A) v i x : nth_error (l ++ [v]) i = Some x -> nth_error l i = Some x \/ (i = length l /\ x = v).
Proof.
  intros H. destruct (Nat.lt_ge_cases i (length l)) as [L|L].
  - rewrite nth_app_old in H by exact L. now left.
  - right. assert (i < length (l ++ [v])) by (eapply nth_some_lt; exact H). rewrite app_length in *. cbn in *.
    assert (i = length l) by lia. subst i. rewrite nth_app_new in H. injection H as <-. auto.
Qed.
Lemma nth_set_inv {A} (l : list A) i v j x : nth_error (set_nth l i v) j = Some x -> (j = i /\ x = v /\ i < length l) \/ (j <> i /\ nth_error l j = Some x).
Proof.
  intros H. destruct (Nat.eq_dec j i) as [->|N].
  - left. assert (i < length (set_nth l i v)) by (eapply nth_some_lt; exact H). rewrite set_nth_length in *. rewrite nth_set_eq in H by assumption. injection H as <-. auto.
  - right. rewrite nth_set_neq in H by congruence. auto.
Qed.

(** ** Connecting nodes *)
Notation ndlist := (list (option ref * nfun)).
Lemma connect_len ns : forall (nds : ndlist) last nds' last', connect nds last ns = Ok (nds', last') -> length nds' = length nds.
Proof.
  induction ns as [|n ns IH]; intros nds last nds' last' H; cbn in H; [now injection H as <- <-|].
  destruct (nth_error nds n) as [[u f]|]; [|discriminate]. rewrite (IH _ _ _ _ H). apply set_nth_length.
Qed.
Lemma connect_fun ns : forall (nds : ndlist) last nds' last', connect nds last ns = Ok (nds', last') ->
  forall m u f, nth_error nds m = Some (u, f) -> exists u', nth_error nds' m = Some (u', f).
Proof.
  induction ns as [|n ns IH]; intros nds last nds' last' H m u f Hm; cbn in H; [injection H as <- <-; eauto|].
  destruct (nth_error nds n) as [[u0 f0]|] eqn:En; [|discriminate]. destruct (Nat.eq_dec n m) as [->|N].
  - rewrite En in Hm. injection Hm as -> ->. eapply IH; [exact H|]. apply nth_set_eq. eapply nth_some_lt; exact En.
  - eapply IH; [exact H|]. rewrite nth_set_neq by exact N. exact Hm.
Qed.
Lemma connect_other ns : forall (nds : ndlist) last nds' last', connect nds last ns = Ok (nds', last') ->
  forall m, ~ In m ns -> nth_error nds' m = nth_error nds m.
Proof.
  induction ns as [|n ns IH]; intros nds last nds' last' H m Hm; cbn in H; [now injection H as <- <-|].
  destruct (nth_error nds n) as [[u0 f0]|] eqn:En; [|discriminate]. rewrite (IH _ _ _ _ H) by (intros HI; apply Hm; now right).
  apply nth_set_neq. intros ->. apply Hm. now left.
Qed.
Lemma connect_closed ns : forall (nds : ndlist) last nds' last', connect nds last ns = Ok (nds', last') ->
  forall m r f, In m ns -> nth_error nds' m = Some (Some r, f) -> r = last \/ exists m', r = RNode m' /\ In m' ns.
Proof.
  induction ns as [|n ns IH]; intros nds last nds' last' H m r f Hin Hm; [destruct Hin|]. cbn in H.
  destruct (nth_error nds n) as [[u0 f0]|] eqn:En; [|discriminate].
  destruct (in_dec Nat.eq_dec m ns) as [Hi|Hi].
  - right. destruct (IH _ _ _ _ H m r f Hi Hm) as [->|(m' & -> & Hm')]; [exists n|exists m']; (split; [reflexivity|]); [now left|now right].
  - destruct Hin as [->|Hin]; [|contradiction]. rewrite (connect_other _ _ _ _ _ H m Hi), nth_set_eq in Hm by (eapply nth_some_lt; exact En).
    injection Hm as <- _. now left.
Qed.
Lemma connect_set ns : forall (nds : ndlist) last nds' last', connect nds last ns = Ok (nds', last') ->
  forall m, In m ns -> exists r f, nth_error nds' m = Some (Some r, f).
Proof.
  induction ns as [|n ns IH]; intros nds last nds' last' H m Hin; [destruct Hin|]. cbn in H.
  destruct (nth_error nds n) as [[u0 f0]|] eqn:En; [|discriminate].
  destruct (in_dec Nat.eq_dec m ns) as [Hi|Hi]; [exact (IH _ _ _ _ H m Hi)|]. destruct Hin as [->|Hin]; [|contradiction].
  rewrite (connect_other _ _ _ _ _ H m Hi), nth_set_eq by (eapply nth_some_lt; exact En). eauto.
Qed.
Fixpoint lref (last : ref) (ns : list nat) : ref := match ns with [] => last | n :: r => lref (RNode n) r end.
Lemma connect_last ns : forall (nds : ndlist) last nds' last', connect nds last ns = Ok (nds', last') -> last' = lref last ns.
Proof.
  induction ns as [|n ns IH]; intros nds last nds' last' H; cbn in H; [now injection H as <- <-|].
  destruct (nth_error nds n) as [[u0 f0]|]; [|discriminate]. exact (IH _ _ _ _ H).
Qed.
Lemma lref_in last ns : lref last ns = last \/ exists m, lref last ns = RNode m /\ In m ns.
Proof.
  revert last; induction ns as [|n ns IH]; intros last; [now left|]. cbn. right. destruct (IH (RNode n)) as [->|(m & -> & H)]; [exists n|exists m]; (split; [reflexivity|]); [now left|now right].
Qed.
Lemma connect_ok ns : forall (nds : ndlist) last, Forall (fun n => n < length nds) ns -> exists nds' last', connect nds last ns = Ok (nds', last').
Proof.
  induction ns as [|n ns IH]; intros nds last H; cbn; [eauto|]. apply Forall_cons_iff in H. destruct H as [H1 H2].
  destruct (nth_error nds n) as [[u0 f0]|] eqn:En; [|apply nth_error_None in En; lia]. apply IH. now rewrite set_nth_length.
Qed.

Fixpoint linked (nds : ndlist) (last : ref) (ns : list nat) (fs : list nfun) : Prop :=
  match ns, fs with
  | [], [] => True
  | n :: r, f :: fs => nth_error nds n = Some (Some last, f) /\ linked nds (RNode n) r fs
  | _, _ => False
  end.
Lemma connect_linked ns : NoDup ns -> forall (nds : ndlist) last nds' last' fs, connect nds last ns = Ok (nds', last') ->
  Forall2 (fun n f => exists u, nth_error nds n = Some (u, f)) ns fs -> linked nds' last ns fs.
Proof.
  induction ns as [|n ns IH]; intros ND nds last nds' last' fs H HF; inversion HF as [|? f ? fs' [u Hu] HF']; subst; [exact I|].
  apply NoDup_cons_iff in ND. destruct ND as [ND1 ND2]. cbn in H. rewrite Hu in H. cbn [linked]. split.
  - rewrite (connect_other _ _ _ _ _ H n ND1). apply nth_set_eq. eapply nth_some_lt; exact Hu.
  - eapply IH; [exact ND2|exact H|]. clear -HF' ND1. induction HF' as [|m f' r fs' [u' Hu'] _ IH]; constructor.
    + exists u'. rewrite nth_set_neq; [exact Hu'|]. intros ->. apply ND1. now left.
    + apply IH. intros HI. apply ND1. now right.
Qed.
Lemma linked_same (nds nds' : ndlist) ns : forall last fs, (forall m, In m ns -> nth_error nds' m = nth_error nds m) -> linked nds last ns fs -> linked nds' last ns fs.
Proof.
  induction ns as [|n ns IH]; intros last [|f fs] H HL; cbn [linked] in *; try contradiction; [exact I|]. destruct HL as [H1 H2].
  split; [rewrite H by (now left); exact H1|]. apply IH; [|exact H2]. intros m Hm. apply H. now right.
Qed.
Lemma chain_mono f nds : forall r f' x, f <= f' -> chain f nds r = Ok x -> chain f' nds r = Ok x.
Proof.
  induction f as [|f IH]; intros r f' x L H; destruct r as [n|s]; cbn in H.
  - discriminate.
  - destruct f'; exact H.
  - destruct f' as [|f']; [lia|]. cbn. destruct (nth_error nds n) as [[[up|] g]|]; try discriminate.
    destruct (chain f nds up) as [p|e] eqn:E; [|discriminate]. rewrite (IH up f' p ltac:(lia) E). exact H.
  - destruct f'; exact H.
Qed.
Lemma chain_linked nds ns : forall last fs, linked nds last ns fs -> forall fuel fs0 s, chain fuel nds last = Ok (fs0, s) ->
  chain (length ns + fuel) nds (lref last ns) = Ok (fs0 ++ fs, s).
Proof.
  induction ns as [|n ns IH]; intros last [|f fs] HL fuel fs0 s H; cbn [linked] in HL; try contradiction.
  - cbn. now rewrite app_nil_r.
  - destruct HL as [H1 H2]. cbn [lref length]. replace (S (length ns) + fuel) with (length ns + S fuel) by lia.
    rewrite (IH _ _ H2 (S fuel) (fs0 ++ [f]) s); [now rewrite <- app_assoc|]. cbn. rewrite H1, H. reflexivity.
Qed.
(* the chain never leaves a closed set of nodes *)
Lemma chain_closed (nds : ndlist) (P : nat -> Prop) (S : nat -> Prop) :
  (forall m r f, P m -> nth_error nds m = Some (Some r, f) -> match r with RNode m' => P m' | RSource s => S s end) ->
  forall fuel n fs s, P n -> chain fuel nds (RNode n) = Ok (fs, s) -> S s.
Proof.
  intros H. induction fuel as [|fuel IH]; intros n fs s Hn E; [discriminate|]. cbn in E.
  destruct (nth_error nds n) as [[[up|] g]|] eqn:En; try discriminate. specialize (H _ _ _ Hn En).
  destruct up as [m|s'].
  - destruct (chain fuel nds (RNode m)) as [[fs' s'']|e] eqn:Ec; [|discriminate]. cbn in E. injection E as <- <-. exact (IH _ _ _ H Ec).
  - destruct fuel; cbn in E; injection E as <- <-; exact H.
Qed.

Section P.
Context {C : Type}.

(** ** The first half of a load *)
Definition prep (st : state C) (a : args C) : state C * res (list nat) :=
  if resampling a then
    match prepare_opts st a with
    | Err e => (st, Err e)
    | Ok (st1, d) =>
        match append_apply st1 a d with
        | Err e => (st1, Err e)
        | Ok (st2, l) => match nth_error (lists st2) l with None => (st2, Err NameError) | Some ns => (st2, Ok ns) end
        end
    end
  else match a_prep a with
       | None => (st, Ok [])
       | Some l => match nth_error (lists st) l with None => (st, Err NameError) | Some ns => (st, Ok ns) end
       end.
Lemma load_prep st a : load st a = match prep st a with (st', Err e) => (st', Err e) | (st', Ok ns) => connect_source st' ns (a_src a) end.
Proof.
  unfold load, prep. destruct (resampling a).
  - destruct (prepare_opts st a) as [[st1 d]|e]; [|reflexivity]. destruct (append_apply st1 a d) as [[st2 l]|e]; [|reflexivity].
    destruct (nth_error (lists st2) l); reflexivity.
  - destruct (a_prep a) as [l|]; [|reflexivity]. destruct (nth_error (lists st) l); reflexivity.
Qed.

Lemma prepare_opts_facts (st st1 : state C) a d : prepare_opts st a = Ok (st1, d) ->
  lists st1 = lists st /\ nodes st1 = nodes st /\ sources st1 = sources st /\ gens st1 = gens st /\ length (dicts st) <= length (dicts st1) /\
  (forall d' v, nth_error (dicts st) d' = Some (Some v) -> nth_error (dicts st1) d' = Some (Some v)) /\
  (forall d', d' < length (dicts st) -> a_opts a <> Some d' -> nth_error (dicts st1) d' = nth_error (dicts st) d') /\
  (exists v, nth_error (dicts st1) d = Some (Some v) /\
     ((exists d0, a_opts a = Some d0 /\ nth_error (dicts st) d0 = Some (Some v)) \/
      ((forall d0, a_opts a = Some d0 -> nth_error (dicts st) d0 = Some None) /\ v = ceil_div (a_max a) (period a) /\ (period a <> 0)%Z))).
Proof.
  unfold prepare_opts. intros H. destruct (a_opts a) as [d0|].
  - destruct (nth_error (dicts st) d0) as [[v|]|] eqn:E; [| |discriminate].
    + injection H as <- <-. cbn. repeat (split; [try reflexivity; try lia; auto|]). exists v. split; [exact E|]. left. eauto.
    + destruct (Z.eqb_spec (period a) 0) as [Z|Z]; [discriminate|]. injection H as <- <-. cbn. pose proof (nth_some_lt _ _ _ E) as L.
      do 4 (split; [reflexivity|]). split; [rewrite set_nth_length; lia|]. split; [|split].
      * intros d' v Hv. rewrite nth_set_neq; [exact Hv|]. intros ->. congruence.
      * intros d' _ Hd. apply nth_set_neq. congruence.
      * eexists. split; [apply nth_set_eq; exact L|]. right. split; [intros d1 [= <-]; exact E|]. split; [reflexivity|exact Z].
  - rewrite nth_app_new in H. destruct (Z.eqb_spec (period a) 0) as [Z|Z]; [discriminate|]. injection H as <- <-. cbn.
    do 4 (split; [reflexivity|]). split; [rewrite set_nth_length, app_length; lia|]. split; [|split].
    + intros d' v Hv. pose proof (nth_some_lt _ _ _ Hv). rewrite nth_set_neq by lia. rewrite nth_app_old by assumption. exact Hv.
    + intros d' L _. rewrite nth_set_neq by lia. apply nth_app_old. exact L.
    + eexists. split; [apply nth_set_eq; rewrite app_length; cbn; lia|]. right. split; [intros d1; discriminate|]. split; [reflexivity|exact Z].
Qed.

Lemma append_apply_facts (st st2 : state C) a d l : append_apply st a d = Ok (st2, l) ->
  dicts st2 = dicts st /\ nodes st2 = nodes st ++ [(None, Resample (period a) d)] /\ sources st2 = sources st /\ gens st2 = gens st /\
  length (lists st) <= length (lists st2) /\
  (exists ns, (a_prep a = Some l /\ nth_error (lists st) l = Some ns \/ a_prep a = None /\ l = length (lists st) /\ ns = []) /\
     nth_error (lists st2) l = Some (ns ++ [length (nodes st)])) /\
  (forall l', l' < length (lists st) -> a_prep a <> Some l' -> nth_error (lists st2) l' = nth_error (lists st) l') /\
  (forall l' ns', nth_error (lists st2) l' = Some ns' -> l' <> l -> nth_error (lists st) l' = Some ns').
Proof.
  unfold append_apply. intros H. destruct (a_prep a) as [l0|].
  - destruct (nth_error (lists st) l0) as [ns|] eqn:E; [|discriminate]. injection H as <- <-. cbn. pose proof (nth_some_lt _ _ _ E) as L.
    do 4 (split; [reflexivity|]). split; [rewrite set_nth_length; lia|]. split; [|split].
    + exists ns. split; [left; auto|]. apply nth_set_eq. exact L.
    + intros l' _ N. apply nth_set_neq. congruence.
    + intros l' ns' H N. rewrite nth_set_neq in H by congruence. exact H.
  - rewrite nth_app_new in H. injection H as <- <-. cbn. do 4 (split; [reflexivity|]). split; [rewrite set_nth_length, app_length; lia|]. split; [|split].
    + exists []. split; [right; auto|]. apply nth_set_eq. rewrite app_length. cbn. lia.
    + intros l' L _. rewrite nth_set_neq by lia. apply nth_app_old. exact L.
    + intros l' ns' H N. rewrite nth_set_neq in H by congruence. apply nth_app_inv in H. destruct H as [H|[H _]]; [exact H|congruence].
Qed.

Record prep_facts (st : state C) (a : args C) (st' : state C) (r : res (list nat)) : Prop := {
  p_sources : sources st' = sources st;
  p_gens : gens st' = gens st;
  p_nodes : nodes st' = nodes st \/ (resampling a = true /\ exists d, nodes st' = nodes st ++ [(None, Resample (period a) d)]);
  p_lists : forall l ns', nth_error (lists st') l = Some ns' ->
    nth_error (lists st) l = Some ns' \/
    (resampling a = true /\ length (nodes st') = S (length (nodes st)) /\
     exists ns, ns' = ns ++ [length (nodes st)] /\
       ((a_prep a = Some l /\ nth_error (lists st) l = Some ns) \/ (a_prep a = None /\ length (lists st) <= l /\ ns = [])));
  p_same : forall l, l < length (lists st) -> (a_prep a = Some l -> resampling a = false) -> nth_error (lists st') l = nth_error (lists st) l;
  p_llen : length (lists st) <= length (lists st');
  p_dlen : length (dicts st) <= length (dicts st');
  p_dset : forall d v, nth_error (dicts st) d = Some (Some v) -> nth_error (dicts st') d = Some (Some v);
  p_dsame : forall d, d < length (dicts st) -> (a_opts a = Some d -> resampling a = false) -> nth_error (dicts st') d = nth_error (dicts st) d;
  p_result : forall ns, r = Ok ns -> (exists l, nth_error (lists st') l = Some ns /\ (a_prep a = Some l \/ (a_prep a = None /\ length (lists st) <= l))) \/ (ns = [] /\ a_prep a = None)
}.
Lemma prep_ok st a st' r : prep st a = (st', r) -> prep_facts st a st' r.
Proof.
  unfold prep. destruct (resampling a) eqn:ER.
  - destruct (prepare_opts st a) as [[st1 d]|e] eqn:E1.
    + destruct (prepare_opts_facts _ _ _ _ E1) as (A1 & A2 & A3 & A4 & A5 & A6 & A7 & _).
      destruct (append_apply st1 a d) as [[st2 l]|e] eqn:E2.
      * destruct (append_apply_facts _ _ _ _ _ E2) as (B1 & B2 & B3 & B4 & B5 & (ns & B6 & B6') & B7 & B8). rewrite B6'.
        intros [= <- <-]. rewrite A1, A2 in *. split.
        -- congruence.
        -- congruence.
        -- right. split; [exact ER|]. exists d. congruence.
        -- intros l' ns' H. destruct (Nat.eq_dec l' l) as [->|N]; [|left; exact (B8 _ _ H N)]. right. split; [exact ER|].
           split; [rewrite B2, app_length; cbn; lia|]. rewrite B6' in H. injection H as <-. exists ns. split; [reflexivity|].
           destruct B6 as [[P Q]|(P & -> & Q)]; [left; auto|right; auto].
        -- intros l' L H. apply B7; [exact L|]. intros K. specialize (H K). congruence.
        -- exact B5.
        -- rewrite B1. exact A5.
        -- intros d' v H. rewrite B1. now apply A6.
        -- intros d' L H. rewrite B1. apply A7; [exact L|]. intros K. specialize (H K). congruence.
        -- intros ns0 [= <-]. left. exists l. split; [exact B6'|]. destruct B6 as [[P _]|(P & -> & _)]; auto.
      * intros [= <- <-]. split; try congruence; auto.
        -- intros l ns H. left. congruence.
        -- rewrite A1. lia.
        -- intros d' L H. apply A7; [exact L|]. intros K. specialize (H K). congruence.
    + intros [= <- <-]. split; auto; try lia; try congruence.
  - destruct (a_prep a) as [l|] eqn:EP.
    + destruct (nth_error (lists st) l) as [ns|] eqn:E; intros [= <- <-]; split; auto; try lia; try congruence.
      intros ns0 [= <-]. left. exists l. auto.
    + intros [= <- <-]. split; auto; try lia.
      intros ns [= <-]. right. auto.
Qed.
End P.
