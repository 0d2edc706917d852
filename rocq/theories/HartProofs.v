From Verif Require Import Base HartModel HartSpec.
From Coq Require Import QArith Qabs Sorting.Sorted Lqa.
Open Scope nat_scope.

(** ** Tolerances *)

Lemma Qlt_b_spec a b : Qlt_b a b = true <-> (a < b)%Q.
Proof.
  unfold Qlt_b. rewrite negb_true_iff. split.
  - intros H. apply Qnot_le_lt. intros L. apply Qle_bool_iff in L. congruence.
  - intros H. destruct (Qle_bool b a) eqn:E; [|reflexivity]. apply Qle_bool_iff in E. lra.
Qed.

Lemma Qmax2_cases a b : (Qmax2 a b = a \/ Qmax2 a b = b) /\ (a <= Qmax2 a b)%Q /\ (b <= Qmax2 a b)%Q.
Proof.
  unfold Qmax2. destruct (Qle_bool a b) eqn:E.
  - apply Qle_bool_iff in E. split; [right; reflexivity|]. split; lra.
  - split; [left; reflexivity|]. assert (~ (a <= b)%Q) by (intros L; apply Qle_bool_iff in L; congruence). split; lra.
Qed.

Lemma component_spec b x y : Qlt_b (Qabs (x + y)) (tolerance b x y) = true <-> component_cancels (pb_min_tol b) (pb_percent b) (pb_large b) x y.
Proof.
  unfold tolerance, component_cancels. destruct (Qmax2_cases (Qabs x) (Qabs y)) as (M1 & M2 & M3). set (m := Qmax2 (Qabs x) (Qabs y)) in *.
  destruct (Qlt_b m (pb_large b)) eqn:E; rewrite Qlt_b_spec.
  - apply Qlt_b_spec in E. split.
    + intros H. left. repeat split; [lra|lra|exact H].
    + intros [(_ & _ & H)|(m' & [-> | ->] & L1 & L2 & L3 & _)]; [exact H|lra|lra].
  - assert (L : (pb_large b <= m)%Q) by (apply Qnot_lt_le; intros L; apply Qlt_b_spec in L; congruence). split.
    + intros H. right. exists m. repeat split; try assumption. 
    + intros [(L1 & L2 & _)|(m' & D & L1 & L2 & L3 & H)].
      * destruct M1 as [M1|M1]; rewrite M1 in L; lra.
      * assert (Em : (m' == m)%Q).
        { apply Qle_antisym; [destruct D as [-> | ->]; assumption|destruct M1 as [-> | ->]; assumption]. }
        rewrite Em in H. exact H.
Qed.

Lemma cancels_spec b v c : length v = length c -> (cancels b v c = true <-> Forall2 (component_cancels (pb_min_tol b) (pb_percent b) (pb_large b)) v c).
Proof.
  revert c. induction v as [|x v IH]; intros [|y c] H; cbn in H; try lia.
  - split; [constructor|reflexivity].
  - unfold cancels. cbn [combine forallb fst snd]. rewrite andb_true_iff, component_spec. change (forallb _ (combine v c)) with (cancels b v c). rewrite (IH c) by lia.
    split; [intros [A B]; constructor; assumption|intros A; inversion_clear A; split; assumption].
Qed.

(** ** One call of [pair_transitions] *)

Lemma nodup_app {A} (l l' : list A) : NoDup l -> NoDup l' -> (forall x, In x l -> In x l' -> False) -> NoDup (l ++ l').
Proof.
  intros H1 H2 H. induction H1 as [|a l Ha H1 IH]; [exact H2|]. cbn. constructor.
  - intros Hin. apply in_app_or in Hin. destruct Hin as [Hin|Hin]; [contradiction|]. eapply H; [left; reflexivity|exact Hin].
  - apply IH. intros x Hx Hx'. eapply H; [right; exact Hx|exact Hx'].
Qed.

Definition good (b : pairbuffer) (e f : event) : Prop := on_off (pb_min_tol b) (pb_percent b) (pb_large b) e f.

Lemma good_spec b x y : length (tr_powers x) = length (tr_powers y) ->
  (good b (data x) (data y) <-> first_positive (tr_powers x) = Ok true /\ cancels b (tr_powers x) (tr_powers y) = true).
Proof.
  intros H. unfold good, on_off, data. cbn [snd]. rewrite (cancels_spec b _ _ H). split.
  - intros [(p & r & E & L) F]. split; [|exact F]. rewrite E. cbn. f_equal. apply Qlt_b_spec. exact L.
  - intros [E F]. split; [|exact F]. destruct (tr_powers x) as [|p r]; [discriminate|]. exists p, r. split; [reflexivity|]. cbn in E. apply Qlt_b_spec. congruence.
Qed.

Lemma set_nth_length {A} i (x : A) l : length (set_nth i x l) = length l.
Proof. revert i. induction l as [|y l IH]; intros [|i]; cbn; [reflexivity..|]. rewrite IH. reflexivity. Qed.
Lemma set_nth_same {A} i (x : A) l : i < length l -> nth_error (set_nth i x l) i = Some x.
Proof. revert i. induction l as [|y l IH]; intros [|i] H; cbn in *; [lia|lia|reflexivity|]. apply IH. lia. Qed.
Lemma set_nth_other {A} i j (x : A) l : i <> j -> nth_error (set_nth i x l) j = nth_error l j.
Proof. revert i j. induction l as [|y l IH]; intros [|i] [|j] H; cbn; [reflexivity..|contradiction|reflexivity|reflexivity|]. apply IH. lia. Qed.

Definition uniform (n : nat) (l : list transition) : Prop := forall t, In t l -> length (tr_powers t) = n.

Record inv (b : pairbuffer) (l0 l : list transition) (new : list (event * event)) (P : list (nat * nat)) (C : nat -> nat -> Prop) : Prop := {
  i_len : length l = length l0;
  i_lt : Forall (fun p => fst p < snd p < length l0) P;
  i_nodup : NoDup (used P);
  i_pair : Forall2 (is_pair (map data l0)) P new;
  i_good : Forall (fun q => good b (fst q) (snd q)) new;
  i_marks : forall k t0, nth_error l0 k = Some t0 -> nth_error l k = Some (if in_dec Nat.eq_dec k (used P) then mark t0 else t0);
  i_fresh : forall k t0, In k (used P) -> nth_error l0 k = Some t0 -> tr_matched t0 = false;
  i_done : forall i j x y, C i j -> nth_error l i = Some x -> nth_error l j = Some y -> tr_matched x = false -> tr_matched y = false -> ~ good b (data x) (data y)
}.

Lemma used_app P Q : used (P ++ Q) = used P ++ used Q.
Proof. apply flat_map_app. Qed.

Lemma data_mark t : data (mark t) = data t.
Proof. reflexivity. Qed.

Lemma compare_ok b l0 l new P (C : nat -> nat -> Prop) n idx comp : uniform (S n) l0 -> inv b l0 l new P C -> idx < comp < length l0 ->
  exists l' new' P', compare b (l, new) idx comp = Ok (l', new') /\ inv b l0 l' new' P' (fun i j => C i j \/ (i = idx /\ j = comp)).
Proof.
  intros HU HI HC. destruct HI as [I1 I2 I3 I4 I5 I6 I7 I8].
  destruct (nth_error l0 idx) as [v0|] eqn:E0; [|apply nth_error_None in E0; lia]. destruct (nth_error l0 comp) as [c0|] eqn:F0; [|apply nth_error_None in F0; lia].
  pose proof (I6 _ _ E0) as E. pose proof (I6 _ _ F0) as F. set (v := if in_dec Nat.eq_dec idx (used P) then mark v0 else v0) in *. set (c := if in_dec Nat.eq_dec comp (used P) then mark c0 else c0) in *.
  assert (Dv : data v = data v0) by (unfold v; destruct (in_dec Nat.eq_dec idx (used P)); reflexivity). assert (Dc : data c = data c0) by (unfold c; destruct (in_dec Nat.eq_dec comp (used P)); reflexivity).
  assert (Lv : length (tr_powers v) = S n). { replace (tr_powers v) with (snd (data v)) by reflexivity. rewrite Dv. apply HU. eapply nth_error_In. exact E0. }
  assert (Lc : length (tr_powers c) = S n). { replace (tr_powers c) with (snd (data c)) by reflexivity. rewrite Dc. apply HU. eapply nth_error_In. exact F0. }
  assert (GS := good_spec b v c ltac:(congruence)).
  assert (NO : ~ (tr_matched v = false /\ tr_matched c = false /\ good b (data v) (data c)) -> inv b l0 l new P (fun i j => C i j \/ (i = idx /\ j = comp))).
  { intros N. constructor; try assumption. intros i j x y [Hc|[-> ->]] Hx Hy Mx My G; [exact (I8 i j x y Hc Hx Hy Mx My G)|]. apply N. rewrite E in Hx. rewrite F in Hy. injection Hx as <-. injection Hy as <-. auto. }
  unfold compare, at_. rewrite E. cbn [bind]. assert (EP : exists p, first_positive (tr_powers v) = Ok p) by (destruct (tr_powers v); [discriminate|eexists; reflexivity]). destruct EP as [p EP]. rewrite EP. cbn [bind].
  destruct (p && negb (tr_matched v)) eqn:EB.
  2:{ exists l, new, P. split; [reflexivity|]. apply NO. intros (M1 & M2 & G). apply GS in G. destruct G as [G _]. rewrite EP in G. injection G as ->. rewrite M1 in EB. discriminate. }
  apply andb_true_iff in EB. destruct EB as [-> Mv]. apply negb_true_iff in Mv. rewrite F. cbn [bind].
  destruct (tr_matched c) eqn:Mc; cbn [negb].
  { exists l, new, P. split; [reflexivity|]. apply NO. intros (_ & M2 & _). discriminate. }
  destruct (cancels b (tr_powers v) (tr_powers c)) eqn:EC.
  2:{ exists l, new, P. split; [reflexivity|]. apply NO. intros (_ & _ & G). apply GS in G. destruct G; congruence. }
  assert (Nv : ~ In idx (used P)) by (intros Hin; unfold v in Mv; destruct (in_dec Nat.eq_dec idx (used P)); [discriminate|contradiction]).
  assert (Nc : ~ In comp (used P)) by (intros Hin; unfold c in Mc; destruct (in_dec Nat.eq_dec comp (used P)); [discriminate|contradiction]).
  assert (Ev : v = v0) by (unfold v; destruct (in_dec Nat.eq_dec idx (used P)); [contradiction|reflexivity]). assert (Ec : c = c0) by (unfold c; destruct (in_dec Nat.eq_dec comp (used P)); [contradiction|reflexivity]).
  clearbody v c. subst v c.
  exists (set_nth comp (mark c0) (set_nth idx (mark v0) l)), (new ++ [(data v0, data c0)]), (P ++ [(idx, comp)]). split; [reflexivity|].
  assert (UA : used (P ++ [(idx, comp)]) = used P ++ [idx; comp]) by apply used_app.
  assert (MK : forall k t0, nth_error l0 k = Some t0 -> nth_error (set_nth comp (mark c0) (set_nth idx (mark v0) l)) k = Some (if in_dec Nat.eq_dec k (used (P ++ [(idx, comp)])) then mark t0 else t0)).
  { intros k t0 Hk. destruct (in_dec Nat.eq_dec k (used (P ++ [(idx, comp)]))) as [Hin|Hnin]; rewrite UA in *.
    - destruct (Nat.eq_dec comp k) as [<-|Hk1]; [rewrite set_nth_same by (rewrite set_nth_length; lia); congruence|]. rewrite set_nth_other by exact Hk1.
      destruct (Nat.eq_dec idx k) as [<-|Hk2]; [rewrite set_nth_same by lia; congruence|]. rewrite set_nth_other by exact Hk2.
      rewrite (I6 k t0 Hk). apply in_app_or in Hin. destruct Hin as [Hin|[Hin|[Hin|[]]]]; [|congruence|congruence]. destruct (in_dec Nat.eq_dec k (used P)); [reflexivity|contradiction].
    - assert (comp <> k /\ idx <> k /\ ~ In k (used P)) as (H1 & H2 & H3) by (repeat split; intros X; apply Hnin; apply in_or_app; [right; right; left; exact X|right; left; exact X|left; exact X]).
      rewrite set_nth_other, set_nth_other by assumption. rewrite (I6 k t0 Hk). destruct (in_dec Nat.eq_dec k (used P)); [contradiction|reflexivity]. }
  constructor.
  - rewrite !set_nth_length. exact I1.
  - apply Forall_app. split; [exact I2|]. constructor; [exact HC|constructor].
  - rewrite UA. apply nodup_app; [exact I3| |].
    + constructor; [intros [Hx|[]]; lia|]. constructor; [intros []|constructor].
    + intros x Hx [<-|[<-|[]]]; contradiction.
  - apply Forall2_app; [exact I4|]. constructor; [|constructor]. split; cbn [fst snd]; rewrite nth_error_map; [rewrite E0|rewrite F0]; reflexivity.
  - apply Forall_app. split; [exact I5|]. constructor; [|constructor]. cbn [fst snd]. apply GS. split; [exact EP|reflexivity].
  - exact MK.
  - intros k t0 Hin Hk. rewrite UA in Hin. apply in_app_or in Hin. destruct Hin as [Hin|[<-|[<-|[]]]]; [eapply I7; eassumption|congruence|congruence].
  - intros i j x y Hc Hx Hy Mx My G.
    assert (HX : forall k z, nth_error (set_nth comp (mark c0) (set_nth idx (mark v0) l)) k = Some z -> tr_matched z = false -> nth_error l k = Some z /\ k <> idx /\ k <> comp).
    { intros k z Hz Mz. destruct (Nat.eq_dec comp k) as [<-|Hk1]; [rewrite set_nth_same in Hz by (rewrite set_nth_length; lia); injection Hz as <-; discriminate|]. rewrite set_nth_other in Hz by exact Hk1.
      destruct (Nat.eq_dec idx k) as [<-|Hk2]; [rewrite set_nth_same in Hz by lia; injection Hz as <-; discriminate|]. rewrite set_nth_other in Hz by exact Hk2. auto. }
    destruct (HX i x Hx Mx) as (Hx' & Hi & _). destruct (HX j y Hy My) as (Hy' & _ & _). destruct Hc as [Hc|[-> _]]; [exact (I8 i j x y Hc Hx' Hy' Mx My G)|contradiction].
Qed.

Lemma inv_weaken b l0 l new P (C C' : nat -> nat -> Prop) : (forall i j, C' i j -> C i j) -> inv b l0 l new P C -> inv b l0 l new P C'.
Proof. intros H [I1 I2 I3 I4 I5 I6 I7 I8]. constructor; try assumption. intros i j x y Hc. apply I8. apply H. exact Hc. Qed.

Lemma inner_ok b l0 n d m : uniform (S n) l0 -> 1 <= d -> forall k l new P (C : nat -> nat -> Prop), inv b l0 l new P C ->
  exists l' new' P', inner b (length l0) d (seq k m) (l, new) = Ok (l', new') /\
    inv b l0 l' new' P' (fun i j => C i j \/ (k <= i < k + m /\ j = i + d /\ j < length l0)).
Proof.
  intros HU Hd. induction m as [|m IH]; intros k l new P C HI; cbn [seq inner].
  - exists l, new, P. split; [reflexivity|]. eapply inv_weaken; [|exact HI]. cbn. intros i j [H|H]; [exact H|lia].
  - destruct (k + d <? length l0) eqn:E.
    + apply Nat.ltb_lt in E. destruct (compare_ok b l0 l new P C n k (k + d) HU HI ltac:(lia)) as (l1 & n1 & P1 & E1 & H1). rewrite E1. cbn [bind].
      destruct (IH (S k) l1 n1 P1 _ H1) as (l2 & n2 & P2 & E2 & H2). exists l2, n2, P2. split; [exact E2|]. eapply inv_weaken; [|exact H2]. cbn.
      intros i j [H|(Ha & Hb & Hc)]; [left; left; exact H|]. destruct (Nat.eq_dec i k) as [->|]; [left; right; lia|right; lia].
    + apply Nat.ltb_ge in E. exists l, new, P. split; [reflexivity|]. eapply inv_weaken; [|exact HI]. cbn. intros i j [H|H]; [exact H|lia].
Qed.

Lemma outer_ok b l0 n m : uniform (S n) l0 -> forall d, 1 <= d -> forall l new P (C : nat -> nat -> Prop), inv b l0 l new P C ->
  exists l' new' P', foldM (fun st dist => inner b (length l0) dist (seq 0 (length l0 - 1)) st) (seq d m) (l, new) = Ok (l', new') /\
    inv b l0 l' new' P' (fun i j => C i j \/ (d <= j - i < d + m /\ i < j /\ j < length l0)).
Proof.
  intros HU. induction m as [|m IH]; intros d Hd l new P C HI; cbn [seq foldM].
  - exists l, new, P. split; [reflexivity|]. eapply inv_weaken; [|exact HI]. cbn. intros i j [H|H]; [exact H|lia].
  - destruct (inner_ok b l0 n d (length l0 - 1) HU Hd 0 l new P C HI) as (l1 & n1 & P1 & E1 & H1). rewrite E1. cbn [bind].
    destruct (IH (S d) ltac:(lia) l1 n1 P1 _ H1) as (l2 & n2 & P2 & E2 & H2). exists l2, n2, P2. split; [exact E2|]. eapply inv_weaken; [|exact H2]. cbn.
    intros i j [H|(Ha & Hb & Hc)]; [left; left; exact H|]. destruct (Nat.eq_dec (j - i) d) as [Ed|]; [left; right; lia|right; lia].
Qed.

Lemma pair_transitions_ok b n : uniform (S n) (pb_list b) ->
  exists r l new P, pair_transitions b = Ok (r, mkPB (pb_size b) (pb_min_tol b) (pb_percent b) (pb_large b) (pb_n b) l (pb_pairs b ++ new)) /\
    (r = true <-> new <> []) /\
    inv b (pb_list b) l new P (fun i j => i < j < length (pb_list b)).
Proof.
  intros HU. unfold pair_transitions.
  assert (I0 : inv b (pb_list b) (pb_list b) [] [] (fun _ _ => False)).
  { constructor; try constructor; cbn.
    - intros k t0 Hk. rewrite Hk. reflexivity.
    - intros k t0 [].
    - intros i j x y []. }
  destruct (length (pb_list b) <? 2) eqn:E.
  - exists false, (pb_list b), [], []. rewrite app_nil_r. split; [destruct b; reflexivity|]. split; [split; [discriminate|intros H; contradiction]|]. eapply inv_weaken; [|exact I0]. cbn. apply Nat.ltb_lt in E. lia.
  - destruct (outer_ok b (pb_list b) n (length (pb_list b) - 1) HU 1 (le_n 1) _ _ _ _ I0) as (l & new & P & E1 & H1). rewrite E1. cbn [bind].
    exists (match new with [] => false | _ => true end), l, new, P. split; [reflexivity|]. split; [destruct new; split; congruence|]. eapply inv_weaken; [|exact H1]. cbn. intros i j H. right. lia.
Qed.

(** ** Cleaning the buffer *)

Lemma popmiddle_ok {A} pos (l : list A) : pos < length l -> popmiddle pos l = Ok (firstn pos l ++ skipn (S pos) l).
Proof.
  intros H. unfold popmiddle, rotate_left. assert (E : exists x, skipn pos l = x :: skipn (S pos) l).
  { revert l H. induction pos as [|pos IH]; intros [|y l] H; cbn in *; try lia; [eexists; reflexivity|]. apply IH. lia. }
  destruct E as [x E]. rewrite E. cbn [app]. f_equal. unfold rotate_right. rewrite app_length, firstn_length_le by lia.
  replace (length (skipn (S pos) l) + pos - pos) with (length (skipn (S pos) l)) by lia. rewrite skipn_app, skipn_all, Nat.sub_diag, firstn_app, firstn_all, Nat.sub_diag. cbn [skipn firstn app]. rewrite app_nil_r. reflexivity.
Qed.

Lemma first_matched_spec i l : match first_matched i l with
  | None => filter (fun t => negb (tr_matched t)) l = l
  | Some k => i <= k /\ k - i < length l /\ filter (fun t => negb (tr_matched t)) (firstn (k - i) l ++ skipn (S (k - i)) l) = filter (fun t => negb (tr_matched t)) l
  end.
Proof.
  revert i. induction l as [|t l IH]; intros i; cbn [first_matched]; [reflexivity|]. destruct (tr_matched t) eqn:E.
  - split; [lia|]. rewrite Nat.sub_diag. cbn. rewrite E. cbn. split; [lia|reflexivity].
  - specialize (IH (S i)). destruct (first_matched (S i) l) as [k|].
    + destruct IH as (H1 & H2 & H3). split; [lia|]. replace (k - i) with (S (k - S i)) by lia. cbn [length firstn skipn app filter]. rewrite E. cbn [negb].
      split; [lia|]. f_equal. exact H3.
    + cbn [filter]. rewrite E. cbn [negb]. rewrite IH. reflexivity.
Qed.

Lemma clean_list_ok fuel l : length l <= fuel -> clean_list fuel l = Ok (filter (fun t => negb (tr_matched t)) l).
Proof.
  revert l. induction fuel as [|fuel IH]; intros l H; cbn [clean_list]; pose proof (first_matched_spec 0 l) as S; destruct (first_matched 0 l) as [k|].
  - destruct S as (_ & S & _). lia.
  - rewrite S. reflexivity.
  - destruct S as (_ & S1 & S2). rewrite Nat.sub_0_r in *. rewrite popmiddle_ok by exact S1. cbn [bind]. rewrite IH.
    + rewrite S2. reflexivity.
    + rewrite app_length, firstn_length, skipn_length. lia.
  - rewrite S. reflexivity.
Qed.

Lemma deque_append_length {A} k (l : list A) x : length (deque_append k l x) <= k.
Proof. unfold deque_append. rewrite skipn_length, app_length. cbn. lia. Qed.

(** ** The whole stream *)

Definition lt_sorted (L : list (nat * transition)) : Prop := StronglySorted (fun a b => fst a < fst b) L.

Record sinv (b0 b : pairbuffer) (es : list event) (L : list (nat * transition)) (P : list (nat * nat)) : Prop := {
  s_par : pb_size b = pb_size b0 /\ pb_min_tol b = pb_min_tol b0 /\ pb_percent b = pb_percent b0 /\ pb_large b = pb_large b0 /\ pb_n b = pb_n b0;
  s_list : map snd L = pb_list b;
  s_sorted : lt_sorted L;
  s_data : Forall (fun p => nth_error es (fst p) = Some (data (snd p))) L;
  s_mark : Forall (fun p => In (fst p) (used P) <-> tr_matched (snd p) = true) L;
  s_lt : Forall (fun p => fst p < snd p < length es) P;
  s_nodup : NoDup (used P);
  s_pair : Forall2 (is_pair es) P (pb_pairs b);
  s_good : Forall (fun q => good b0 (fst q) (snd q)) (pb_pairs b);
  s_bound : length (pb_list b) <= pb_size b0;
  s_done : forall i j x y, i < j -> nth_error (pb_list b) i = Some x -> nth_error (pb_list b) j = Some y -> tr_matched x = false -> tr_matched y = false -> ~ good b0 (data x) (data y)
}.

Lemma SSorted_filter {A} (R : A -> A -> Prop) f l : StronglySorted R l -> StronglySorted R (filter f l).
Proof.
  induction 1 as [|a l HS IH HF]; cbn; [constructor|]. destruct (f a); [|exact IH]. constructor; [exact IH|]. rewrite Forall_forall in *. intros x Hx. apply filter_In in Hx. apply HF. tauto.
Qed.
Lemma SSorted_skipn {A} (R : A -> A -> Prop) k l : StronglySorted R l -> StronglySorted R (skipn k l).
Proof. revert l. induction k as [|k IH]; intros l H; [exact H|]. destruct l; [exact H|]. inversion_clear H. apply IH. assumption. Qed.
Lemma SSorted_snoc {A} (R : A -> A -> Prop) l x : StronglySorted R l -> Forall (fun y => R y x) l -> StronglySorted R (l ++ [x]).
Proof.
  induction 1 as [|a l HS IH HF]; intros H; cbn; [constructor; constructor|]. inversion_clear H. constructor; [apply IH; assumption|]. apply Forall_app. split; [exact HF|]. constructor; [assumption|constructor].
Qed.
Lemma Forall_skipn {A} (R : A -> Prop) k l : Forall R l -> Forall R (skipn k l).
Proof. revert l. induction k as [|k IH]; intros l H; [exact H|]. destruct l; [exact H|]. inversion_clear H. apply IH. assumption. Qed.
Lemma map_skipn {A B} (f : A -> B) k l : map f (skipn k l) = skipn k (map f l).
Proof. revert l. induction k as [|k IH]; intros [|x l]; cbn; [reflexivity..|]. apply IH. Qed.
Lemma filter_map {A B} (f : A -> B) (p : B -> bool) l : filter p (map f l) = map f (filter (fun x => p (f x)) l).
Proof. induction l as [|x l IH]; [reflexivity|]. cbn. destruct (p (f x)); cbn; rewrite IH; reflexivity. Qed.

Lemma nth_error_ext {A} (l l' : list A) : (forall k, nth_error l k = nth_error l' k) -> l = l'.
Proof.
  revert l'. induction l as [|x l IH]; intros [|y l'] H; [reflexivity|specialize (H 0); discriminate|specialize (H 0); discriminate|].
  f_equal; [specialize (H 0); cbn in H; congruence|]. apply IH. intros k. exact (H (S k)).
Qed.

Lemma nth_map {A B} (f : A -> B) l k y : nth_error (map f l) k = Some y -> exists x, nth_error l k = Some x /\ y = f x.
Proof. rewrite nth_error_map. destruct (nth_error l k) as [x|]; cbn; [|discriminate]. intros H. injection H as <-. eauto. Qed.

Lemma sorted_inj L i j x y : lt_sorted L -> nth_error L i = Some x -> nth_error L j = Some y -> (i < j -> fst x < fst y).
Proof.
  intros HS. revert i j. induction HS as [|a l HS IH HF]; intros [|i] [|j] Hx Hy Hlt; cbn in *; try discriminate; try lia.
  - injection Hx as <-. rewrite Forall_forall in HF. apply HF. eapply nth_error_In. exact Hy.
  - eapply IH; [exact Hx|exact Hy|lia].
Qed.

Lemma nth_snoc {A} (l : list A) x k y : nth_error l k = Some y -> nth_error (l ++ [x]) k = Some y.
Proof. intros H. rewrite nth_error_app1; [exact H|]. apply nth_error_Some. congruence. Qed.

Definition opt_map_pairs (ids : nat -> nat) (P : list (nat * nat)) : list (nat * nat) := map (fun p => (ids (fst p), ids (snd p))) P.

Lemma used_map ids P : used (opt_map_pairs ids P) = map ids (used P).
Proof. unfold used, opt_map_pairs. induction P as [|p P IH]; [reflexivity|]. cbn. rewrite IH. reflexivity. Qed.

Lemma in_used p P : In p P -> In (fst p) (used P) /\ In (snd p) (used P).
Proof. intros H. split; apply in_flat_map; exists p; (split; [exact H|cbn; tauto]). Qed.

Lemma used_lt P n : Forall (fun p => fst p < snd p < n) P -> forall k, In k (used P) -> k < n.
Proof. intros H k Hk. apply in_flat_map in Hk. destruct Hk as (p & Hp & Hk). rewrite Forall_forall in H. specialize (H p Hp). cbn in Hk. destruct Hk as [<-|[<-|[]]]; lia. Qed.

Lemma nodup_map_inj {A B} (f : A -> B) l : (forall x y, In x l -> In y l -> f x = f y -> x = y) -> NoDup l -> NoDup (map f l).
Proof.
  intros HI HN. induction HN as [|a l Ha HN IH]; [constructor|]. cbn. constructor.
  - intros H. apply in_map_iff in H. destruct H as (x & E & Hx). apply HI in E; [subst x; contradiction|right; exact Hx|left; reflexivity].
  - apply IH. intros x y Hx Hy. apply HI; right; assumption.
Qed.

Lemma step_ok b0 b es L P e n : pb_n b0 = S n -> sinv b0 b es L P -> Forall (fun x => length (snd x) = S n) es -> length (snd e) = S n ->
  exists b' L' P', pair_step b e = Ok b' /\ sinv b0 b' (es ++ [e]) L' P'.
Proof.
  intros Hn HI HU He. destruct HI as [(A1 & A2 & A3 & A4 & A5) I1 I2 I3 I4 I5 I6 I7 I8 I9 I10]. unfold pair_step.
  (* cleaning *)
  assert (CL : exists L1, (if length (pb_list b) =? pb_size b then clean_buffer b else Ok b) = Ok (set_list b (map snd L1)) /\ lt_sorted L1 /\
     Forall (fun p => nth_error es (fst p) = Some (data (snd p))) L1 /\ Forall (fun p => In (fst p) (used P) <-> tr_matched (snd p) = true) L1 /\ length L1 <= pb_size b0).
  { destruct (length (pb_list b) =? pb_size b).
    - exists (filter (fun p => negb (tr_matched (snd p))) L). unfold clean_buffer. rewrite clean_list_ok by lia. cbn [bind]. rewrite <- I1, filter_map.
      split; [reflexivity|]. split; [apply SSorted_filter; exact I2|]. split; [|split].
      + rewrite Forall_forall in *. intros p Hp. apply filter_In in Hp. apply I3. tauto.
      + rewrite Forall_forall in *. intros p Hp. apply filter_In in Hp. apply I4. tauto.
      + rewrite <- I1, map_length in I9. etransitivity; [|exact I9]. clear. induction L as [|a l IH]; cbn; [lia|]. destruct (negb _); cbn; lia.
    - exists L. rewrite I1. split; [destruct b; reflexivity|]. split; [exact I2|]. split; [exact I3|]. split; [exact I4|]. rewrite <- I1, map_length in I9. exact I9. }
  destruct CL as (L1 & EC & C1 & C2 & C3 & C4). rewrite EC. cbn [bind]. clear EC.
  unfold add_transition. change (pb_n (set_list b (map snd L1))) with (pb_n b). rewrite A5, Hn, He, Nat.eqb_refl. cbn [negb bind].
  change (pb_size (set_list b (map snd L1))) with (pb_size b). change (pb_list (set_list b (map snd L1))) with (map snd L1). rewrite A1.
  set (L2 := skipn (length L1 + 1 - pb_size b0) (L1 ++ [(length es, mkTr (fst e) (snd e) false)])).
  assert (EL : deque_append (pb_size b0) (map snd L1) (mkTr (fst e) (snd e) false) = map snd L2).
  { unfold deque_append, L2. rewrite map_skipn, map_app, map_length. reflexivity. }
  rewrite EL. assert (BD : length L2 <= pb_size b0) by (unfold L2; rewrite skipn_length, app_length; cbn; lia).
  assert (D1 : lt_sorted L2).
  { apply SSorted_skipn. apply SSorted_snoc; [exact C1|]. rewrite Forall_forall in *. intros p Hp. cbn. apply nth_error_Some. rewrite (C2 p Hp). discriminate. }
  assert (D2 : Forall (fun p => nth_error (es ++ [e]) (fst p) = Some (data (snd p))) L2).
  { apply Forall_skipn. apply Forall_app. split; [eapply Forall_impl; [|exact C2]; intros p; apply nth_snoc|]. constructor; [|constructor]. cbn [fst snd data]. rewrite nth_error_app2, Nat.sub_diag by lia. destruct e; reflexivity. }
  assert (D3 : Forall (fun p => In (fst p) (used P) <-> tr_matched (snd p) = true) L2).
  { apply Forall_skipn. apply Forall_app. split; [exact C3|]. constructor; [|constructor]. cbn. split; [|discriminate]. intros H. apply (used_lt P _ I5) in H. lia. }
  change (set_list (set_list b (map snd L1)) (map snd L2)) with (set_list b (map snd L2)).
  clearbody L2. clear C1 C2 C3 C4 L1 EL I10 I4 I3 I2 I1 L I9.
  set (b1 := set_list b (map snd L2)).
  assert (G01 : forall x y, good b1 x y <-> good b0 x y) by (intros x y; unfold good; cbn; rewrite A2, A3, A4; reflexivity).
  assert (U2 : uniform (S n) (pb_list b1)).
  { intros t Ht. cbn in Ht. apply in_map_iff in Ht. destruct Ht as (p & <- & Hp). rewrite Forall_forall in D2. specialize (D2 p Hp). apply nth_error_In in D2. apply in_app_or in D2.
    replace (tr_powers (snd p)) with (snd (data (snd p))) by reflexivity. destruct D2 as [D2|[D2|[]]]; [rewrite Forall_forall in HU; apply HU; exact D2|rewrite <- D2; exact He]. }
  destruct (pair_transitions_ok b1 n U2) as (r & l & new & Q & ET & _ & HV). rewrite ET. cbn [bind snd].
  destruct HV as [V1 V2 V3 V4 V5 V6 V7 V8]. change (pb_list b1) with (map snd L2) in *. rewrite map_length in *.
  set (ids := fun k => match nth_error L2 k with Some p => fst p | None => 0 end).
  set (L3 := map (fun kp => (fst (snd kp), if in_dec Nat.eq_dec (fst kp) (used Q) then mark (snd (snd kp)) else snd (snd kp))) (combine (seq 0 (length L2)) L2)).
  assert (N3 : forall k, nth_error L3 k = match nth_error L2 k with Some p => Some (fst p, if in_dec Nat.eq_dec k (used Q) then mark (snd p) else snd p) | None => None end).
  { intros k. unfold L3. rewrite nth_error_map.
    assert (NC : nth_error (combine (seq 0 (length L2)) L2) k = match nth_error L2 k with Some p => Some (k, p) | None => None end).
    { replace (match nth_error L2 k with Some p => Some (k, p) | None => None end) with (match nth_error L2 k with Some p => Some (0 + k, p) | None => None end) by reflexivity.
      generalize 0 as s. generalize k. clear. induction L2 as [|x l IH]; intros k s; [destruct k; reflexivity|]. destruct k as [|k]; cbn; [rewrite Nat.add_0_r; reflexivity|].
      rewrite IH. destruct (nth_error l k); [|reflexivity]. f_equal. f_equal. lia. }
    rewrite NC. destruct (nth_error L2 k); reflexivity. }
  assert (EL3 : map snd L3 = l).
  { apply nth_error_ext. intros k. rewrite nth_error_map, N3. destruct (nth_error L2 k) as [p|] eqn:Ek; cbn.
    - symmetry. apply V6. rewrite nth_error_map, Ek. reflexivity.
    - symmetry. apply nth_error_None. rewrite V1. apply nth_error_None. exact Ek. }
  assert (QL : forall k, In k (used Q) -> exists p, nth_error L2 k = Some p /\ ids k = fst p).
  { intros k Hk. apply (used_lt Q _ V2) in Hk. destruct (nth_error L2 k) as [p|] eqn:Ek; [|apply nth_error_None in Ek; lia]. exists p. split; [reflexivity|]. unfold ids. rewrite Ek. reflexivity. }
  assert (IDI : forall x y, In x (used Q) -> In y (used Q) -> ids x = ids y -> x = y).
  { intros x y Hx Hy E. destruct (QL x Hx) as (p & Hp & Ep). destruct (QL y Hy) as (q & Hq & Eq). destruct (Nat.lt_trichotomy x y) as [H|[H|H]]; [|exact H|].
    - pose proof (sorted_inj L2 x y p q D1 Hp Hq H). lia.
    - pose proof (sorted_inj L2 y x q p D1 Hq Hp H). lia. }
  exists (mkPB (pb_size b1) (pb_min_tol b1) (pb_percent b1) (pb_large b1) (pb_n b1) l (pb_pairs b1 ++ new)), L3, (P ++ opt_map_pairs ids Q). split; [reflexivity|].
  assert (UPQ : used (P ++ opt_map_pairs ids Q) = used P ++ map ids (used Q)) by (rewrite used_app, used_map; reflexivity).
  constructor.
  - cbn. auto.
  - exact EL3.
  - (* sorted *)
    assert (EF : map fst L3 = map fst L2).
    { apply nth_error_ext. intros k. rewrite !nth_error_map, N3. destruct (nth_error L2 k); reflexivity. }
    clearbody L3. clear - EF D1. revert L3 EF. induction D1 as [|a l2 HS IH HF]; intros [|a3 l3] EF; cbn in EF; try discriminate; [constructor|]. injection EF as E1 E2.
    constructor; [apply IH; exact E2|]. rewrite E1. apply Forall_forall. intros x Hx. assert (In (fst x) (map fst l2)) by (rewrite <- E2; apply in_map; exact Hx). apply in_map_iff in H. destruct H as (y & Ey & Hy).
    rewrite Forall_forall in HF. rewrite <- Ey. apply HF. exact Hy.
  - apply Forall_forall. intros p Hp. apply In_nth_error in Hp. destruct Hp as [k Hk]. rewrite N3 in Hk. destruct (nth_error L2 k) as [q|] eqn:Eq; [|discriminate]. injection Hk as <-. cbn [fst snd].
    rewrite Forall_forall in D2. rewrite (D2 q) by (eapply nth_error_In; exact Eq). destruct (in_dec Nat.eq_dec k (used Q)); reflexivity.
  - apply Forall_forall. intros p Hp. apply In_nth_error in Hp. destruct Hp as [k Hk]. rewrite N3 in Hk. destruct (nth_error L2 k) as [q|] eqn:Eq; [|discriminate]. injection Hk as <-. cbn [fst snd]. rewrite UPQ.
    rewrite Forall_forall in D3. pose proof (D3 q ltac:(eapply nth_error_In; exact Eq)) as D. rewrite in_app_iff. destruct (in_dec Nat.eq_dec k (used Q)) as [Hin|Hnin].
    + split; [reflexivity|]. intros _. right. apply in_map_iff. exists k. split; [unfold ids; rewrite Eq; reflexivity|exact Hin].
    + rewrite D. split; [|tauto]. intros [H|H]; [exact H|]. apply in_map_iff in H. destruct H as (k' & E & Hk'). destruct (QL k' Hk') as (q' & Hq' & Eq'). rewrite Eq' in E.
      exfalso. destruct (Nat.lt_trichotomy k k') as [Hlt|[Hlt|Hlt]]; [pose proof (sorted_inj L2 k k' q q' D1 Eq Hq' Hlt); lia|subst k'; contradiction|pose proof (sorted_inj L2 k' k q' q D1 Hq' Eq Hlt); lia].
  - apply Forall_app. split; [eapply Forall_impl; [|exact I5]; cbn; rewrite app_length; cbn; lia|]. apply Forall_forall. intros p Hp. apply in_map_iff in Hp. destruct Hp as (q & <- & Hq). cbn [fst snd].
    rewrite Forall_forall in V2. pose proof (V2 q Hq) as Hlt. destruct (in_used q Q Hq) as [U1 U3]. destruct (QL _ U1) as (x & Hx & Ex). destruct (QL _ U3) as (y & Hy & Ey). rewrite Ex, Ey.
    split; [eapply sorted_inj; [exact D1|exact Hx|exact Hy|lia]|]. rewrite Forall_forall in D2. apply nth_error_Some. rewrite (D2 y) by (eapply nth_error_In; exact Hy). discriminate.
  - rewrite UPQ. apply nodup_app; [exact I6|apply nodup_map_inj; assumption|]. intros x H1 H2. apply in_map_iff in H2. destruct H2 as (k & Ek & Hk). destruct (QL k Hk) as (p & Hp & Ep). rewrite Ep in Ek. subst x.
    assert (F : tr_matched (snd p) = false) by (apply (V7 k (snd p) Hk); rewrite nth_error_map, Hp; reflexivity).
    rewrite Forall_forall in D3. apply (D3 p) in H1; [congruence|]. eapply nth_error_In. exact Hp.
  - cbn [pb_pairs]. change (pb_pairs b1) with (pb_pairs b). apply Forall2_app.
    + clear - I7. induction I7 as [|x y l l' H I7 IH]; constructor; [|exact IH]. destruct H as [H1 H2]. split; apply nth_snoc; assumption.
    + clear - V4 D2. rewrite Forall_forall in D2. induction V4 as [|x y l l' H V4 IH]; [constructor|]. cbn. constructor; [|exact IH]. destruct H as [H1 H2].
      apply nth_map in H1. destruct H1 as (t1 & H1 & E1). apply nth_map in H1. destruct H1 as (p1 & H1 & ->). apply nth_map in H2. destruct H2 as (t2 & H2 & E2). apply nth_map in H2. destruct H2 as (p2 & H2 & ->).
      unfold ids. split; cbn [fst snd].
      * rewrite H1, E1. apply D2. eapply nth_error_In. exact H1.
      * rewrite H2, E2. apply D2. eapply nth_error_In. exact H2.
  - cbn [pb_pairs]. apply Forall_app. split; [exact I8|]. eapply Forall_impl; [|exact V5]. cbn. intros q. apply G01.
  - cbn [pb_list]. rewrite V1. exact BD.
  - cbn [pb_list]. intros i j x y Hij Hx Hy Mx My G. apply G01 in G. refine (V8 i j x y _ Hx Hy Mx My G). split; [exact Hij|]. rewrite <- V1. apply nth_error_Some. rewrite Hy. discriminate.
Qed.

Lemma run_ok b0 n : pb_n b0 = S n -> forall es' b es L P, sinv b0 b es L P -> Forall (fun x => length (snd x) = S n) (es ++ es') ->
  exists b' L' P', run b es' = Ok b' /\ sinv b0 b' (es ++ es') L' P'.
Proof.
  intros Hn. induction es' as [|e es' IH]; intros b es L P HI HU; cbn [run foldM].
  - rewrite app_nil_r. eauto.
  - apply Forall_app in HU. destruct HU as [H1 H2]. inversion_clear H2.
    destruct (step_ok b0 b es L P e n Hn HI H1 H) as (b1 & L1 & P1 & E1 & HI1). rewrite E1. cbn [bind].
    assert (EA : es ++ e :: es' = (es ++ [e]) ++ es') by (rewrite <- app_assoc; reflexivity). rewrite EA.
    destruct (IH b1 (es ++ [e]) L1 P1 HI1) as (b2 & L2 & P2 & E2 & HI2); [rewrite <- EA; apply Forall_app; split; [exact H1|constructor; assumption]|]. exists b2, L2, P2. split; assumption.
Qed.

Lemma start_ok column size min_tol percent large n b : new_buffer column size min_tol percent large n = Ok b ->
  b = mkPB size min_tol percent large n [] [] /\ (exists m, n = S m) /\ sinv b b [] [] [].
Proof.
  intros H. assert (E : b = mkPB size min_tol percent large n [] []) by (unfold new_buffer in H; destruct n as [|[|[|]]]; try discriminate; [destruct column; congruence|congruence]).
  split; [exact E|]. split; [unfold new_buffer in H; destruct n as [|n]; [discriminate|eexists; reflexivity]|]. subst b. constructor; cbn; try constructor; auto; try constructor.
  - lia.
  - intros i j x y _ Hx. destruct i; discriminate.
Qed.

Lemma pairs_thm column size min_tol percent large n events b : new_buffer column size min_tol percent large n = Ok b -> Forall (fun e => length (snd e) = n) events ->
  exists pairs P, pair column size min_tol percent large n events = Ok pairs /\
    Forall2 (is_pair events) P pairs /\ Forall (fun p => fst p < snd p) P /\ NoDup (used P) /\ Forall (fun q => on_off min_tol percent large (fst q) (snd q)) pairs.
Proof.
  intros HB HU. destruct (start_ok _ _ _ _ _ _ _ HB) as (E & (m & ->) & HI). destruct (run_ok b m ltac:(subst b; reflexivity) events b [] [] [] HI HU) as (b' & L' & P' & ER & HI'). cbn [app] in HI'.
  exists (pb_pairs b'), P'. unfold pair. rewrite HB. cbn [bind]. rewrite ER. split; [reflexivity|]. destruct HI' as [_ _ _ _ _ H1 H2 H3 H4 _ _]. subst b.
  split; [exact H3|]. split; [eapply Forall_impl; [|exact H1]; cbn; tauto|]. split; [exact H2|exact H4].
Qed.

Lemma buffer_thm column size min_tol percent large n events b : new_buffer column size min_tol percent large n = Ok b -> Forall (fun e => length (snd e) = n) events ->
  exists b', run b events = Ok b' /\ length (pb_list b') <= size /\
    forall i j x y, i < j -> nth_error (pb_list b') i = Some x -> nth_error (pb_list b') j = Some y -> tr_matched x = false -> tr_matched y = false -> ~ on_off min_tol percent large (data x) (data y).
Proof.
  intros HB HU. destruct (start_ok _ _ _ _ _ _ _ HB) as (E & (m & ->) & HI). destruct (run_ok b m ltac:(subst b; reflexivity) events b [] [] [] HI HU) as (b' & L' & P' & ER & HI').
  exists b'. split; [exact ER|]. destruct HI' as [_ _ _ _ _ _ _ _ _ H1 H2]. subst b. split; assumption.
Qed.
