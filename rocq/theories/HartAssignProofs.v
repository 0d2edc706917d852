From Verif Require Import Base HartModel HartSpec HartProofs.
Open Scope nat_scope.

Section A.
  Context {P : Type}.
  Variables (zero c : P) (values : list Z) (prev : Z).
  Let n := length values.
  Definition v_ (k : nat) : Z := nth k values (-1)%Z.

  Definition prev_on : bool := negb ((prev =? -1)%Z || (prev =? 0)%Z).
  Fixpoint st (k : nat) : bool :=
    match k with
    | 0 => prev_on
    | S k => if (v_ k =? 1)%Z then true else if (v_ k =? 0)%Z then false else st k
    end.
  Definition fresh (p : nat) : bool := (v_ p =? 1)%Z && ((p =? 0) || negb (st p)).
  Definition want (k : nat) : bool :=
    match k with
    | 0 => prev_on && (0 <? n - 1) && negb (v_ 0 =? 0)%Z && negb (v_ 0 =? 1)%Z
    | S p => ((S p <? n - 1) && negb (v_ (S p) =? 0)%Z && st (S p)) || ((S p <? n) && fresh p)
    end.
  Definition val (b : bool) : P := if b then c else zero.

  Lemma at_v i : i < n -> at_ values i = Ok (v_ i).
  Proof. intros H. unfold at_, v_. rewrite (nth_error_nth' values (-1)%Z H). reflexivity. Qed.

  Lemma hold_ok stop (x : P) : forall fuel i power, i < n -> n - 1 - i <= fuel -> length power = n ->
    exists j power', hold fuel values stop x i power = Ok (j, power') /\ i <= j <= n - 1 /\ (j = n - 1 \/ v_ j = stop) /\ (forall m, i <= m < j -> v_ m <> stop) /\
      length power' = n /\ (forall m, i <= m < j -> nth_error power' m = Some x) /\ (forall m, ~ (i <= m < j) -> nth_error power' m = nth_error power m).
  Proof.
    induction fuel as [|fuel IH]; intros i power Hi Hf HL; cbn [hold]; rewrite at_v by exact Hi; cbn [bind]; fold n.
    - destruct (negb (v_ i =? stop)%Z && (i <? n - 1)) eqn:E; [apply andb_true_iff in E; destruct E as [_ E]; apply Nat.ltb_lt in E; lia|].
      exists i, power. split; [reflexivity|]. split; [lia|]. split; [left; lia|]. split; [intros m Hm; lia|]. split; [exact HL|]. split; [intros m Hm; lia|reflexivity].
    - destruct (negb (v_ i =? stop)%Z && (i <? n - 1)) eqn:E.
      + apply andb_true_iff in E. destruct E as [E1 E2]. apply Nat.ltb_lt in E2. apply negb_true_iff, Z.eqb_neq in E1.
        destruct (IH (S i) (set_nth i x power) ltac:(lia) ltac:(lia) ltac:(rewrite set_nth_length; exact HL)) as (j & p' & E & H1 & H2 & H3 & H4 & H5 & H6).
        exists j, p'. split; [exact E|]. split; [lia|]. split; [exact H2|]. split; [intros m Hm; destruct (Nat.eq_dec m i) as [->|]; [exact E1|apply H3; lia]|]. split; [exact H4|]. split.
        * intros m Hm. destruct (Nat.eq_dec m i) as [->|]; [|apply H5; lia]. rewrite H6 by lia. apply set_nth_same. rewrite HL. exact Hi.
        * intros m Hm. rewrite H6 by lia. apply set_nth_other. lia.
      + exists i, power. split; [reflexivity|]. split; [lia|]. split.
        * apply andb_false_iff in E. destruct E as [E|E]; [right; apply negb_false_iff, Z.eqb_eq in E; exact E|left; apply Nat.ltb_ge in E; lia].
        * split; [intros m Hm; lia|]. split; [exact HL|]. split; [intros m Hm; lia|reflexivity].
  Qed.

  Definition INV (i : nat) (power : list P) : Prop :=
    length power = n /\ 1 <= i <= n - 1 /\ (forall k, k <= i -> nth_error power k = Some (val (want k))) /\ (forall k, i < k < n -> nth_error power k = Some zero) /\
    (i < n - 1 -> (st i = true /\ v_ i = 0%Z) \/ (st i = false /\ v_ i = 1%Z)).

  Lemma st_hold i j (b : bool) : i <= j -> st i = b -> (forall m, i <= m < j -> v_ m <> (if b then 0 else 1)%Z) -> st j = b.
  Proof.
    intros H E HM. induction H as [|j H IH]; [exact E|]. cbn [st]. specialize (HM j ltac:(lia)) as Hj. rewrite IH by (intros m Hm; apply HM; lia).
    destruct (v_ j =? 1)%Z eqn:E1; [apply Z.eqb_eq in E1; destruct b; [reflexivity|contradiction]|].
    destruct (v_ j =? 0)%Z eqn:E0; [apply Z.eqb_eq in E0; destruct b; [contradiction|reflexivity]|]. reflexivity.
  Qed.

  (** One phase from an event at [i]. *)
  Lemma phase i (b : bool) (power : list P) : i < n - 1 -> length (power : list P) = n -> v_ i = (if b then 1 else 0)%Z -> (i = 0 \/ st i = negb b) ->
    (forall k, k <= i -> nth_error power k = Some (val (want k))) -> (forall k, i < k < n -> nth_error power k = Some zero) ->
    exists j power', hold n values (if b then 0 else 1)%Z (val b) (S i) (set_nth (S i) (val b) power) = Ok (j, power') /\ i < j /\ INV j power'.
  Proof.
    intros Hi HL Hv Hs H1 H2.
    destruct (hold_ok (if b then 0 else 1)%Z (val b) n (S i) (set_nth (S i) (val b) power) ltac:(lia) ltac:(lia) ltac:(rewrite set_nth_length; exact HL)) as (j & p' & E & J1 & J2 & J3 & J4 & J5 & J6).
    exists j, p'. split; [exact E|]. split; [lia|].
    assert (SS : st (S i) = b). { cbn [st]. rewrite Hv. destruct b; reflexivity. }
    assert (SJ : forall k, S i <= k <= j -> st k = b). { intros k Hk. apply (st_hold (S i) k b); [lia|exact SS|]. intros m Hm. apply J3. lia. }
    assert (FR : fresh i = b). { unfold fresh. rewrite Hv. destruct b; [|reflexivity]. destruct Hs as [-> | ->]; [reflexivity|]. rewrite orb_true_r. reflexivity. }
    assert (FN : forall p, S i <= p < j -> fresh p = false).
    { intros p Hp. unfold fresh. rewrite (SJ p) by lia. replace (p =? 0) with false by (symmetry; apply Nat.eqb_neq; lia). destruct b; [rewrite andb_false_r; reflexivity|].
      rewrite andb_true_r. apply Z.eqb_neq. exact (J3 p Hp). }
    split; [exact J4|]. split; [lia|]. split; [|split].
    - intros k Hk. destruct (Nat.le_gt_cases k i) as [L|L].
      { rewrite J6 by lia. rewrite set_nth_other by lia. apply H1. exact L. }
      destruct k as [|p]; [lia|]. cbn [want]. rewrite (SJ (S p)) by lia. replace (S p <? n) with true by (symmetry; apply Nat.ltb_lt; lia). rewrite andb_true_l.
      destruct (Nat.eq_dec (S p) j) as [Ej|Nj].
      + assert (A : (S p <? n - 1) && negb (v_ (S p) =? 0)%Z && b = false).
        { destruct b; [|apply andb_false_r]. rewrite andb_true_r. destruct J2 as [J2|J2]; [replace (S p <? n - 1) with false by (symmetry; apply Nat.ltb_ge; lia); reflexivity|]. rewrite Ej, J2. apply andb_false_r. }
        rewrite A. cbn [orb]. rewrite J6 by lia. destruct (Nat.eq_dec p i) as [->|Np].
        * rewrite set_nth_same by lia. rewrite FR. reflexivity.
        * rewrite set_nth_other by lia. rewrite H2 by lia. rewrite FN by lia. reflexivity.
      + rewrite J5 by lia. f_equal. destruct b.
        * rewrite andb_true_r. replace (S p <? n - 1) with true by (symmetry; apply Nat.ltb_lt; lia). rewrite (proj2 (Z.eqb_neq _ _) (J3 (S p) ltac:(lia))). reflexivity.
        * rewrite andb_false_r. cbn [orb]. destruct (Nat.eq_dec p i) as [->|Np]; [rewrite FR; reflexivity|rewrite FN by lia; reflexivity].
    - intros k Hk. rewrite J6 by lia. rewrite set_nth_other by lia. apply H2. lia.
    - intros Hj. destruct J2 as [J2|J2]; [lia|]. rewrite (SJ j) by lia. rewrite J2. destruct b; [left|right]; split; reflexivity.
  Qed.

  (** The phase that begins in the state given by [prev]. *)
  Lemma first_phase : 0 < n - 1 -> v_ 0 <> 0%Z -> v_ 0 <> 1%Z ->
    exists j power', hold n values (if prev_on then 0 else 1)%Z (val prev_on) 0 (set_nth 0 (val prev_on) (repeat zero n)) = Ok (j, power') /\ 0 < j /\ INV j power'.
  Proof.
    intros Hn V0 V1. assert (HL : length (repeat zero n) = n) by apply repeat_length.
    destruct (hold_ok (if prev_on then 0 else 1)%Z (val prev_on) n 0 (set_nth 0 (val prev_on) (repeat zero n)) ltac:(lia) ltac:(lia) ltac:(rewrite set_nth_length; exact HL)) as (j & p' & E & J1 & J2 & J3 & J4 & J5 & J6).
    exists j, p'. split; [exact E|].
    assert (0 < j). { destruct (Nat.eq_dec j 0) as [->|]; [|lia]. destruct J2 as [J2|J2]; [lia|]. destruct prev_on; contradiction. }
    split; [assumption|].
    assert (SJ : forall k, k <= j -> st k = prev_on). { intros k Hk. apply (st_hold 0 k prev_on); [lia|reflexivity|]. intros m Hm. apply J3. lia. }
    assert (FN : forall p, p < j -> fresh p = false).
    { intros p Hp. unfold fresh. rewrite (SJ p) by lia. destruct p as [|p]; [rewrite (proj2 (Z.eqb_neq _ _) V1); reflexivity|]. cbn [Nat.eqb orb].
      specialize (J3 (S p) ltac:(lia)). destruct prev_on; [rewrite andb_false_r; reflexivity|]. rewrite (proj2 (Z.eqb_neq _ _) J3). reflexivity. }
    split; [exact J4|]. split; [lia|]. split; [|split].
    - intros k Hk. destruct (Nat.eq_dec k j) as [->|Nj].
      + rewrite J6 by lia. rewrite set_nth_other by lia. rewrite nth_error_repeat by lia. destruct j as [|p]; [lia|]. cbn [want]. rewrite (FN p) by lia. rewrite andb_false_r, orb_false_r.
        rewrite (SJ (S p)) by lia. destruct prev_on; [|rewrite andb_false_r; reflexivity]. rewrite andb_true_r.
        destruct J2 as [J2|J2]; [replace (S p <? n - 1) with false by (symmetry; apply Nat.ltb_ge; lia); reflexivity|]. rewrite J2. rewrite andb_false_r. reflexivity.
      + rewrite J5 by lia. f_equal. destruct k as [|p]; cbn [want].
        * replace (0 <? n - 1) with true by (symmetry; apply Nat.ltb_lt; lia). rewrite (proj2 (Z.eqb_neq _ _) V0), (proj2 (Z.eqb_neq _ _) V1). cbn. rewrite !andb_true_r. reflexivity.
        * rewrite (FN p) by lia. rewrite andb_false_r, orb_false_r, (SJ (S p)) by lia. specialize (J3 (S p) ltac:(lia)). destruct prev_on; [|rewrite andb_false_r; reflexivity].
          replace (S p <? n - 1) with true by (symmetry; apply Nat.ltb_lt; lia). rewrite (proj2 (Z.eqb_neq _ _) J3). reflexivity.
    - intros k Hk. rewrite J6 by lia. rewrite set_nth_other by lia. apply nth_error_repeat. lia.
    - intros Hj. destruct J2 as [J2|J2]; [lia|]. rewrite (SJ j) by lia. rewrite J2. destruct prev_on; [left|right]; split; reflexivity.
  Qed.

  Definition RES (power : list P) : Prop := length power = n /\ forall k, k < n -> nth_error power k = Some (val (want k)).

  Lemma loop_ok : forall fuel i power, INV i power -> n - 1 - i <= fuel -> exists out, assign_loop zero c fuel values prev i power = Ok out /\ RES out.
  Proof.
    induction fuel as [|fuel IH]; intros i power (HL & Hi & H1 & H2 & H3) Hf; cbn [assign_loop]; fold n; destruct (i <? n - 1) eqn:E.
    - apply Nat.ltb_lt in E. lia.
    - apply Nat.ltb_ge in E. exists power. split; [reflexivity|]. split; [exact HL|]. intros k Hk. apply H1. lia.
    - apply Nat.ltb_lt in E. rewrite at_v by lia. cbn [bind]. destruct (H3 E) as [[S1 V1]|[S1 V1]]; rewrite V1.
      + destruct (phase i false power E HL V1 (or_intror S1) H1 H2) as (j & p' & EH & Hj & HI). change ((0 =? 1)%Z) with false. change ((0 =? 0)%Z) with true. cbv iota. fold n.
        cbn [val] in EH. rewrite EH. cbn [bind]. apply IH; [exact HI|]. lia.
      + destruct (phase i true power E HL V1 (or_intror S1) H1 H2) as (j & p' & EH & Hj & HI). change ((1 =? 1)%Z) with true. cbv iota. fold n.
        cbn [val] in EH. rewrite EH. cbn [bind]. apply IH; [exact HI|]. lia.
    - apply Nat.ltb_ge in E. exists power. split; [reflexivity|]. split; [exact HL|]. intros k Hk. apply H1. lia.
  Qed.

  Lemma assign_ok : exists out, assign_power zero c values prev = Ok out /\ RES out.
  Proof.
    unfold assign_power. fold n. assert (HZ : forall k, k < n -> nth_error (repeat zero n) k = Some zero) by (intros k Hk; apply nth_error_repeat; exact Hk).
    destruct n as [|m] eqn:En.
    { cbn [assign_loop]. fold n. rewrite En. cbn. exists []. split; [reflexivity|]. split; [rewrite En; reflexivity|]. intros k Hk. rewrite En in Hk. lia. }
    cbn [assign_loop]. fold n. destruct (0 <? n - 1) eqn:E.
    - apply Nat.ltb_lt in E. rewrite at_v by lia. cbn [bind].
      assert (W0 : (v_ 0 = 1%Z \/ v_ 0 = 0%Z) -> want 0 = false) by (intros [H|H]; cbn [want]; rewrite H; cbn; rewrite ?andb_false_r; reflexivity).
      assert (HL : length (repeat zero n) = n) by apply repeat_length. rewrite <- En in *.
      destruct (v_ 0 =? 1)%Z eqn:V1.
      { apply Z.eqb_eq in V1. destruct (phase 0 true (repeat zero n) E HL V1 (or_introl eq_refl)) as (j & p' & EH & Hj & HI).
        - intros k Hk. replace k with 0 by lia. rewrite W0 by auto. apply HZ. lia.
        - intros k Hk. apply HZ. lia.
        - cbn [val] in EH. rewrite EH. cbn [bind]. apply loop_ok; [exact HI|]. lia. }
      destruct (v_ 0 =? 0)%Z eqn:V0.
      { apply Z.eqb_eq in V0. destruct (phase 0 false (repeat zero n) E HL V0 (or_introl eq_refl)) as (j & p' & EH & Hj & HI).
        - intros k Hk. replace k with 0 by lia. rewrite W0 by auto. apply HZ. lia.
        - intros k Hk. apply HZ. lia.
        - cbn [val] in EH. rewrite EH. cbn [bind]. apply loop_ok; [exact HI|]. lia. }
      apply Z.eqb_neq in V1, V0. destruct (first_phase E V0 V1) as (j & p' & EH & Hj & HI).
      assert (X : (if (prev =? -1)%Z || (prev =? 0)%Z then hold n values 1 zero 0 (set_nth 0 zero (repeat zero n)) else hold n values 0 c 0 (set_nth 0 c (repeat zero n))) = Ok (j, p')).
      { rewrite <- EH. unfold prev_on. destruct ((prev =? -1)%Z || (prev =? 0)%Z); reflexivity. }
      rewrite X. cbn [bind]. apply loop_ok; [exact HI|]. lia.
    - apply Nat.ltb_ge in E. exists (repeat zero n). rewrite En. split; [reflexivity|]. rewrite <- En. split; [apply repeat_length|].
      intros k Hk. assert (k = 0) by lia. subst k. rewrite nth_error_repeat by lia. cbn [want]. replace (0 <? n - 1) with false by (symmetry; apply Nat.ltb_ge; lia). rewrite andb_false_r. reflexivity.
  Qed.

  Lemma v_nth k x : nth_error values k = Some x -> v_ k = x.
  Proof. intros H. unfold v_. apply nth_error_nth. exact H. Qed.
  Lemma nth_v k : k < n -> nth_error values k = Some (v_ k).
  Proof. intros H. apply nth_error_nth'. exact H. Qed.

  Lemma st_spec k : k <= n -> (st k = true <-> on_before values prev k).
  Proof.
    induction k as [|k IH]; intros Hk.
    - cbn [st]. unfold prev_on. rewrite negb_true_iff, orb_false_iff, Z.eqb_neq, Z.eqb_neq. unfold on_before. split.
      + intros [H1 H2]. right. split; [intros m v Hm; lia|]. split; assumption.
      + intros [(_ & j & Hj & _)|(_ & H)]; [lia|exact H].
    - cbn [st]. destruct (v_ k =? 1)%Z eqn:V1; [|destruct (v_ k =? 0)%Z eqn:V0].
      + apply Z.eqb_eq in V1. split; [intros _|reflexivity]. left. split; [left; reflexivity|]. exists k. split; [lia|]. split; [rewrite nth_v by lia; congruence|]. intros m v Hm. lia.
      + apply Z.eqb_eq in V0. split; [discriminate|]. intros [(_ & j & Hj & E & N)|(N & _)].
        * exfalso. destruct (Nat.eq_dec j k) as [->|]; [apply v_nth in E; congruence|]. apply (N k 0%Z ltac:(lia)); [rewrite nth_v by lia; congruence|right; reflexivity].
        * exfalso. apply (N k 0%Z ltac:(lia)); [rewrite nth_v by lia; congruence|right; reflexivity].
      + apply Z.eqb_neq in V0, V1. assert (NK : forall v, nth_error values k = Some v -> ~ known v) by (intros v Hv; apply v_nth in Hv; intros [K|K]; congruence).
        rewrite IH by lia. split.
        * intros [(K & j & Hj & E & N)|(N & Hp)].
          -- left. split; [exact K|]. exists j. split; [lia|]. split; [exact E|]. intros m v Hm Hv. destruct (Nat.eq_dec m k) as [->|]; [apply NK; exact Hv|apply (N m v); [lia|exact Hv]].
          -- right. split; [|exact Hp]. intros m v Hm Hv. destruct (Nat.eq_dec m k) as [->|]; [apply NK; exact Hv|apply (N m v); [lia|exact Hv]].
        * intros [(K & j & Hj & E & N)|(N & Hp)].
          -- assert (j <> k) by (intros ->; apply (NK _ E); left; reflexivity). left. split; [exact K|]. exists j. split; [lia|]. split; [exact E|]. intros m v Hm Hv. apply (N m v); [lia|exact Hv].
          -- right. split; [|exact Hp]. intros m v Hm Hv. apply (N m v); [lia|exact Hv].
  Qed.

  (** Statements for the property file. *)
  Lemma assign_values : exists out, assign_power zero c values prev = Ok out /\ length out = n /\ forall x, In x out -> x = zero \/ x = c.
  Proof.
    destruct assign_ok as (out & E & HL & HV). exists out. split; [exact E|]. split; [exact HL|]. intros x Hx. apply In_nth_error in Hx. destruct Hx as [k Hk].
    assert (k < n) by (rewrite <- HL; apply nth_error_Some; congruence). rewrite HV in Hk by assumption. injection Hk as <-. unfold val. destruct (want k); auto.
  Qed.

  Lemma assign_between k v : nth_error values k = Some v -> ~ known v -> S k < n ->
    exists out, assign_power zero c values prev = Ok out /\
      (on_before values prev k -> nth_error out k = Some c) /\ (~ on_before values prev k -> nth_error out k = Some zero).
  Proof.
    intros Hv NK Hk. destruct assign_ok as (out & E & HL & HV). exists out. split; [exact E|].
    assert (W : want k = st k).
    { apply v_nth in Hv. assert (V0 : (v_ k =? 0)%Z = false) by (apply Z.eqb_neq; intros X; apply NK; right; congruence). assert (V1 : (v_ k =? 1)%Z = false) by (apply Z.eqb_neq; intros X; apply NK; left; congruence).
      destruct k as [|p]; cbn [want].
      - rewrite V0, V1. replace (0 <? n - 1) with true by (symmetry; apply Nat.ltb_lt; lia). cbn. rewrite !andb_true_r. reflexivity.
      - rewrite V0. replace (S p <? n - 1) with true by (symmetry; apply Nat.ltb_lt; lia). cbn [negb andb]. replace (S p <? n) with true by (symmetry; apply Nat.ltb_lt; lia). cbn [andb].
        destruct (fresh p) eqn:EF; [|apply orb_false_r]. unfold fresh in EF. apply andb_true_iff in EF. destruct EF as [EF _]. cbn [st]. rewrite EF. reflexivity. }
    rewrite HV, W by lia. pose proof (st_spec k ltac:(lia)) as SP. destruct (st k); split; intros H; try reflexivity.
    - exfalso. apply H. apply SP. reflexivity.
    - apply SP in H. discriminate.
  Qed.

  Lemma assign_at_on k : nth_error values k = Some 1%Z -> S k < n ->
    exists out, assign_power zero c values prev = Ok out /\
      (0 < k -> on_before values prev k -> nth_error out k = Some c) /\ (~ on_before values prev k -> nth_error out k = Some zero).
  Proof.
    intros Hv Hk. destruct assign_ok as (out & E & HL & HV). exists out. split; [exact E|]. apply v_nth in Hv. pose proof (st_spec k ltac:(lia)) as SP. rewrite HV by lia.
    destruct k as [|p]; cbn [want]; rewrite Hv; [split; [lia|]; intros _; cbn; rewrite andb_false_r; reflexivity|].
    replace (S p <? n - 1) with true by (symmetry; apply Nat.ltb_lt; lia). replace (S p <? n) with true by (symmetry; apply Nat.ltb_lt; lia). change (1 =? 0)%Z with false. cbn [negb andb].
    split; intros H.
    - intros HO. apply SP in HO. rewrite HO. reflexivity.
    - assert (SF : st (S p) = false) by (destruct (st (S p)); [exfalso; apply H; apply SP; reflexivity|reflexivity]).
      rewrite SF. cbn [orb]. unfold fresh. cbn [st] in SF. destruct (v_ p =? 1)%Z; [discriminate|]. reflexivity.
  Qed.

  Lemma assign_at_off k : nth_error values k = Some 0%Z ->
    exists out, assign_power zero c values prev = Ok out /\
      (nth_error out k = Some c -> zero <> c -> exists p, k = S p /\ nth_error values p = Some 1%Z).
  Proof.
    intros Hv. destruct assign_ok as (out & E & HL & HV). exists out. split; [exact E|]. intros HC Hz. assert (k < n) by (rewrite <- HL; apply nth_error_Some; congruence). apply v_nth in Hv. rewrite HV in HC by assumption.
    destruct k as [|p]; cbn [want] in HC; rewrite Hv in HC; [cbn in HC; rewrite andb_false_r in HC; cbn in HC; congruence|].
    exists p. split; [reflexivity|]. rewrite nth_v by lia. f_equal. cbn [Z.eqb negb andb] in HC. rewrite andb_false_r in HC. cbn [andb orb] in HC. destruct ((S p <? n) && fresh p) eqn:EF; [|cbn in HC; congruence].
    apply andb_true_iff in EF. destruct EF as [_ EF]. unfold fresh in EF. apply andb_true_iff in EF. destruct EF as [EF _]. apply Z.eqb_eq in EF. exact EF.
  Qed.

  Lemma assign_last k : S k = n -> zero <> c ->
    exists out, assign_power zero c values prev = Ok out /\ (nth_error out k = Some c -> exists p, k = S p /\ nth_error values p = Some 1%Z /\ (p = 0 \/ ~ on_before values prev p)).
  Proof.
    intros Hk Hz. destruct assign_ok as (out & E & HL & HV). exists out. split; [exact E|]. rewrite HV by lia. intros HC. destruct (want k) eqn:W; [|cbn in HC; congruence].
    destruct k as [|p]; cbn [want] in W.
    - replace (0 <? n - 1) with false in W by (symmetry; apply Nat.ltb_ge; lia). rewrite andb_false_r in W. discriminate.
    - exists p. split; [reflexivity|]. replace (S p <? n - 1) with false in W by (symmetry; apply Nat.ltb_ge; lia). cbn [andb orb] in W. apply andb_true_iff in W. destruct W as [_ W]. unfold fresh in W. apply andb_true_iff in W. destruct W as [W1 W2].
      apply Z.eqb_eq in W1. rewrite nth_v by lia. rewrite W1. split; [reflexivity|]. apply orb_true_iff in W2. destruct W2 as [W2|W2]; [left; apply Nat.eqb_eq; exact W2|right].
      intros HO. apply (st_spec p ltac:(lia)) in HO. rewrite HO in W2. discriminate.
  Qed.
End A.
