(** Proofs about Hart's algorithm as a whole: states and predicted columns. *)
From Coq Require Import String QArith Qabs Sorted Lia.
From Verif Require Import Base HartModel SteadyModel ClusterModel HartSpec HartAssignProofs HartProofs HartRunModel HartRunSpec.
Import List. Open Scope list_scope. Open Scope nat_scope.

(** ** The least element *)

Lemma idxmin_spec l : l <> [] -> exists j, idxmin l = Ok j /\ first_least l j.
Proof.
  induction l as [|x r IH]; intros N; [contradiction|]. destruct r as [|y r].
  - exists 0. split; [reflexivity|]. exists x. split; [reflexivity|]. intros [|i] z H; [injection H as <-; split; [lia|apply Qle_refl]|destruct i; discriminate].
  - destruct (IH ltac:(discriminate)) as (i & E & m & Em & Hm). change (idxmin (x :: y :: r)) with (do i <- idxmin (y :: r); if Qle_bool x (nth i (y :: r) 0%Q) then Ok 0 else Ok (S i)).
    rewrite E. cbn [bind]. rewrite (nth_error_nth _ _ 0%Q Em). destruct (Qle_bool x m) eqn:L.
    + apply Qle_bool_iff in L. exists 0. split; [reflexivity|]. exists x. split; [reflexivity|]. intros [|k] z H; [injection H as <-; split; [lia|apply Qle_refl]|].
      cbn in H. destruct (Hm k z H) as [_ Q1]. split; [lia|]. apply (Qle_trans _ m); assumption.
    + assert (L' : (m < x)%Q) by (apply Qnot_le_lt; intros C; apply Qle_bool_iff in C; congruence).
      exists (S i). split; [reflexivity|]. exists m. split; [exact Em|]. intros [|k] z H.
      * injection H as <-. split; [intros _; exact L'|apply Qlt_le_weak; exact L'].
      * cbn in H. destruct (Hm k z H) as [Q1 Q2]. split; [intros; apply Q1; lia|exact Q2].
Qed.

Lemma first_least_unique l i j : first_least l i -> first_least l j -> i = j.
Proof.
  intros (x & Ex & Hx) (y & Ey & Hy). destruct (Nat.lt_trichotomy i j) as [L|[L|L]]; [|exact L|].
  - destruct (Hy i x Ex) as [A _]. destruct (Hx j y Ey) as [_ B]. specialize (A L). exfalso. apply (Qlt_not_le _ _ A). exact B.
  - destruct (Hx j y Ey) as [A _]. destruct (Hy i x Ex) as [_ B]. specialize (A L). exfalso. apply (Qlt_not_le _ _ A). exact B.
Qed.

Lemma closest_spec centroids d : centroids <> [] -> exists j, closest centroids (Qabs d) = Ok j /\ belongs centroids d j /\ j < length centroids.
Proof.
  intros N. unfold closest. destruct (idxmin_spec (map (fun c => Qabs (c - Qabs d)) centroids)) as (j & E & H); [destruct centroids; [contradiction|discriminate]|].
  exists j. split; [exact E|]. split; [exact H|]. destruct H as (x & H & _). rewrite <- (map_length (fun c => Qabs (c - Qabs d))). apply nth_error_Some. congruence.
Qed.

(** ** The states *)

Lemma position_spec t index : NoDup index -> In t index -> exists k, position t index = Some k /\ nth_error index k = Some t.
Proof.
  induction index as [|u r IH]; intros N I; [destruct I|]. cbn [position]. destruct (Z.eqb_spec u t) as [->|D]; [exists 0; split; reflexivity|].
  destruct I as [->|I]; [contradiction|]. apply NoDup_cons_iff in N. destruct (IH (proj2 N) I) as (k & E & H). exists (S k). rewrite E. split; [reflexivity|exact H].
Qed.

Section States.
  Variables (index : list Z) (centroids : list Q).
  Hypothesis index_nodup : NoDup index.
  Hypothesis some_centroid : centroids <> [].

  Definition code (d : Q) : Z := if Qlt_b 0 d then 1%Z else 0%Z.
  (** What the transitions leave in column [j] for time [t]. *)
  Fixpoint after (trs : list (Z * vec)) (j : nat) (t : Z) (v : Z) : Z :=
    match trs with
    | [] => v
    | tr :: r =>
        after r j t (match snd tr with
                     | [d] => if (fst tr =? t)%Z then match closest centroids (Qabs d) with Ok j' => if j' =? j then code d else v | Err _ => v end else v
                     | _ => v
                     end)
    end.
  Definition shape (states : list (list Z)) : Prop := length states = length centroids /\ Forall (fun col => length col = length index) states.
  Definition cell (states : list (list Z)) (j k : nat) : option Z := match nth_error states j with Some col => nth_error col k | None => None end.

  Definition in_time (tr : Z * vec) : Prop := (exists d, snd tr = [d]) /\ In (fst tr) index.
  Hypothesis index_sorted : StronglySorted Z.lt index.

  Lemma last_opt_in {A} (l : list A) x : last_opt l = Some x -> In x l.
  Proof. induction l as [|a l IH]; [discriminate|]. destruct l; [intros H; injection H as <-; left; reflexivity|]. intros H. right. apply IH. exact H. Qed.
  Lemma last_opt_some {A} (l : list A) : l <> [] -> exists x, last_opt l = Some x.
  Proof. induction l as [|a l IH]; [contradiction|]. intros _. destruct l; [exists a; reflexivity|]. apply IH. discriminate. Qed.
  Lemma last_opt_nth {A} (l : list A) : last_opt l = nth_error l (length l - 1).
  Proof. induction l as [|a l IH]; [reflexivity|]. destruct l as [|b l]; [reflexivity|]. change (last_opt (a :: b :: l)) with (last_opt (b :: l)). rewrite IH. cbn [length]. replace (S (S (length l)) - 1) with (S (S (length l) - 1)) by lia. reflexivity. Qed.
  Lemma sorted_last l x t : StronglySorted Z.lt l -> last_opt l = Some x -> In t l -> (t <= x)%Z.
  Proof.
    induction l as [|a l IH]; intros S H I; [destruct I|]. apply StronglySorted_inv in S. destruct S as [S F]. destruct l as [|b l]; [injection H as <-; destruct I as [<-|[]]; lia|].
    change (last_opt (a :: b :: l)) with (last_opt (b :: l)) in H. destruct I as [<-|I]; [|apply IH; assumption].
    apply last_opt_in in H. rewrite Forall_forall in F. specialize (F x H). lia.
  Qed.

  Lemma mark_ok states tr : shape states -> in_time tr -> exists states', mark_transition index centroids states tr = Ok states' /\ shape states' /\
    forall j k t, nth_error index k = Some t -> j < length centroids -> forall v, cell states j k = Some v -> cell states' j k = Some (after [tr] j t v).
  Proof.
    intros [S1 S2] [[d Ed] It]. destruct tr as [tt0 p]. cbn [fst snd] in *. subst p. unfold mark_transition. cbn [fst snd].
    destruct index as [|first rest] eqn:EI; [destruct It|]. rewrite <- EI in *.
    destruct (last_opt_some index) as [lst EL]; [rewrite EI; discriminate|]. rewrite EL.
    assert (F : (first <= tt0)%Z). { rewrite EI in index_sorted, It. apply StronglySorted_inv in index_sorted. destruct index_sorted as [_ F]. rewrite Forall_forall in F. destruct It as [<-|It]; [lia|specialize (F _ It); lia]. }
    pose proof (sorted_last index lst tt0 index_sorted EL It) as G.
    destruct (Z.ltb_spec tt0 first); [lia|]. destruct (Z.ltb_spec lst tt0); [lia|].
    destruct (closest_spec centroids d some_centroid) as (j0 & Ej & _ & Lj). rewrite Ej. cbn [bind].
    destruct (nth_error states j0) as [col|] eqn:EC; [|apply nth_error_None in EC; lia]. cbn [bind].
    destruct (position_spec tt0 index index_nodup It) as (k0 & Ek & Hk). rewrite Ek. eexists. split; [reflexivity|].
    assert (LC : length col = length index) by (rewrite Forall_forall in S2; apply S2; apply nth_error_In in EC; exact EC).
    assert (K0 : k0 < length index) by (apply nth_error_Some; congruence).
    split.
    - split; [rewrite set_nth_length; exact S1|]. apply Forall_forall. intros c Ic. apply In_nth_error in Ic. destruct Ic as [i Hi]. destruct (Nat.eq_dec j0 i) as [->|D].
      + rewrite set_nth_same in Hi by lia. injection Hi as <-. rewrite set_nth_length. exact LC.
      + rewrite set_nth_other in Hi by exact D. rewrite Forall_forall in S2. apply S2. apply nth_error_In in Hi. exact Hi.
    - intros j k t Hkt Lj' v Hv. cbn [after snd fst]. rewrite Ej. unfold cell in *. destruct (Nat.eq_dec j0 j) as [->|D].
      + rewrite set_nth_same by lia. rewrite Nat.eqb_refl. rewrite EC in Hv. destruct (Nat.eq_dec k0 k) as [->|Dk].
        * rewrite set_nth_same by lia. assert (tt0 = t) by congruence. subst t. rewrite Z.eqb_refl. reflexivity.
        * rewrite set_nth_other by exact Dk. destruct (Z.eqb_spec tt0 t) as [->|_]; [|exact Hv]. exfalso. apply Dk. apply (proj1 (NoDup_nth_error index) index_nodup); [exact K0|congruence].
      + rewrite set_nth_other by exact D. destruct (Nat.eqb_spec j0 j); [contradiction|]. destruct (tt0 =? t)%Z; exact Hv.
  Qed.

  Lemma marks_ok trs : Forall in_time trs -> forall states, shape states -> exists states', foldM (mark_transition index centroids) trs states = Ok states' /\ shape states' /\
    forall j k t, nth_error index k = Some t -> j < length centroids -> forall v, cell states j k = Some v -> cell states' j k = Some (after trs j t v).
  Proof.
    induction trs as [|tr trs IH]; intros F states S.
    - exists states. split; [reflexivity|]. split; [exact S|]. intros. assumption.
    - apply Forall_cons_iff in F. destruct F as [F1 F2]. destruct (mark_ok states tr S F1) as (s1 & E1 & S1 & H1). destruct (IH F2 s1 S1) as (s2 & E2 & S2 & H2).
      exists s2. cbn [foldM]. rewrite E1. cbn [bind]. split; [exact E2|]. split; [exact S2|]. intros j k t Hk Hj v Hv. change (after (tr :: trs) j t v) with (after trs j t (after [tr] j t v)). apply (H2 j k t Hk Hj). apply (H1 j k t Hk Hj). exact Hv.
  Qed.

  Lemma after_other trs j t v : ~ In t (map fst trs) -> after trs j t v = v.
  Proof.
    revert v. induction trs as [|[u p] r IH]; intros v H; [reflexivity|]. cbn [after fst snd]. cbn in H. rewrite IH by tauto. destruct p as [|d [|? ?]]; try reflexivity. destruct (Z.eqb_spec u t); [tauto|reflexivity].
  Qed.

  Lemma code_spec d : (code d = 1%Z /\ (0 < d)%Q) \/ (code d = 0%Z /\ ~ (0 < d)%Q).
  Proof. unfold code. pose proof (Qlt_b_spec 0 d) as S. destruct (Qlt_b 0 d); [left; split; [reflexivity|apply S; reflexivity]|right; split; [reflexivity|intros C; apply S in C; discriminate]]. Qed.

  (** The value of a cell tells the switch of cluster [j] at time [t]. *)
  Lemma after_spec trs j t : NoDup (map fst trs) -> Forall in_time trs ->
    (after trs j t (-1) = 1%Z /\ switched trs centroids j t true) \/
    (after trs j t (-1) = 0%Z /\ switched trs centroids j t false) \/
    (after trs j t (-1) = (-1)%Z /\ ~ any_switch trs centroids j t).
  Proof.
    induction trs as [|[u p] r IH]; intros N F.
    - right. right. split; [reflexivity|]. intros (up & d & [] & _).
    - cbn in N. apply NoDup_cons_iff in N. destruct N as [N1 N2]. apply Forall_cons_iff in F. destruct F as [[[d Ed] _] F]. cbn in Ed. subst p.
      cbn [after fst snd]. destruct (closest_spec centroids d some_centroid) as (j0 & Ej & B & _). rewrite Ej.
      assert (Lift : forall up, switched r centroids j t up -> switched ((u, [d]) :: r) centroids j t up) by (intros up (d' & I & B' & U); exists d'; split; [right; exact I|split; assumption]).
      destruct (Z.eqb_spec u t) as [->|Dt].
      + destruct (Nat.eqb_spec j0 j) as [->|Dj].
        * rewrite after_other by exact N1. destruct (code_spec d) as [[-> P]|[-> P]].
          -- left. split; [reflexivity|]. exists d. split; [left; reflexivity|]. split; [exact B|]. split; [intros _; exact P|reflexivity].
          -- right. left. split; [reflexivity|]. exists d. split; [left; reflexivity|]. split; [exact B|]. split; [discriminate|intros C; contradiction].
        * rewrite after_other by exact N1. right. right. split; [reflexivity|]. intros (up & d' & [I|I] & B' & _).
          -- injection I as <-. apply Dj. apply (first_least_unique _ _ _ B B').
          -- apply N1. apply (in_map fst) in I. exact I.
      + destruct (IH N2 F) as [[-> H]|[[-> H]|[-> H]]]; [left|right; left|right; right].
        * split; [reflexivity|apply Lift; exact H].
        * split; [reflexivity|apply Lift; exact H].
        * split; [reflexivity|]. intros (up & d' & [I|I] & B' & U); [injection I as -> _; contradiction|]. apply H. exists up, d'. split; [exact I|split; assumption].
  Qed.

  Lemma switch_unique trs j t a b : NoDup (map fst trs) -> switched trs centroids j t a -> switched trs centroids j t b -> a = b.
  Proof.
    intros N (d & I & _ & U) (d' & I' & _ & U').
    assert (d = d').
    { revert N I I'. induction trs as [|[u p] r IH]; intros N I I'; [destruct I|]. cbn in N. apply NoDup_cons_iff in N. destruct N as [N1 N2].
      destruct I as [I|I], I' as [I'|I'].
      - congruence.
      - injection I as -> _. exfalso. apply N1. apply (in_map fst) in I'. exact I'.
      - injection I' as -> _. exfalso. apply N1. apply (in_map fst) in I. exact I.
      - apply IH; assumption. }
    subst d'. destruct a, b; try reflexivity; [symmetry; apply (proj2 U'); apply (proj1 U); reflexivity|apply (proj2 U); apply (proj1 U'); reflexivity].
  Qed.

  (** ** One column *)
  Section Column.
    Variables (trs : list (Z * vec)) (j : nat) (c : Q) (values : list Z).
    Hypothesis trs_nodup : NoDup (map fst trs).
    Hypothesis trs_ok : Forall in_time trs.
    Hypothesis values_length : length values = length index.
    Hypothesis values_are : forall k t, nth_error index k = Some t -> nth_error values k = Some (after trs j t (-1)).

    Lemma value_at k v : nth_error values k = Some v -> exists t, nth_error index k = Some t /\ v = after trs j t (-1).
    Proof.
      intros H. assert (L : k < length index) by (rewrite <- values_length; apply nth_error_Some; congruence). destruct (nth_error index k) as [t|] eqn:E; [|apply nth_error_None in E; lia].
      exists t. split; [reflexivity|]. rewrite (values_are k t E) in H. congruence.
    Qed.

    Lemma index_lt a b t u : nth_error index a = Some t -> nth_error index b = Some u -> (a < b <-> (t < u)%Z).
    Proof.
      assert (M : forall l a b t u, StronglySorted Z.lt l -> nth_error l a = Some t -> nth_error l b = Some u -> a < b -> (t < u)%Z).
      { induction l as [|x l IH]; intros a' b' t' u' S Ea Eb L; [destruct a'; discriminate|]. apply StronglySorted_inv in S. destruct S as [S F].
        destruct b' as [|b']; [lia|]. destruct a' as [|a']; cbn in *; [injection Ea as <-; rewrite Forall_forall in F; apply F; apply nth_error_In in Eb; exact Eb|]. apply (IH a' b'); [assumption..|lia]. }
      intros Ea Eb. split; [apply (M index); assumption|]. intros L. destruct (Nat.lt_trichotomy a b) as [H|[H|H]]; [exact H|subst; assert (t = u) by congruence; lia|].
      pose proof (M index b a u t index_sorted Eb Ea H). lia.
    Qed.

    Lemma switch_in t up : switched trs centroids j t up -> exists k, nth_error index k = Some t.
    Proof. intros (d & I & _). rewrite Forall_forall in trs_ok. destruct (trs_ok _ I) as [_ H]. apply In_nth_error in H. exact H. Qed.

    Lemma known_switch k t : nth_error index k = Some t -> forall v, nth_error values k = Some v -> (known v <-> any_switch trs centroids j t).
    Proof.
      intros Ek v Hv. rewrite (values_are k t Ek) in Hv. injection Hv as <-. destruct (after_spec trs j t trs_nodup trs_ok) as [[-> H]|[[-> H]|[-> H]]].
      - split; [intros _; exists true; exact H|intros _; left; reflexivity].
      - split; [intros _; exists false; exact H|intros _; right; reflexivity].
      - split; [intros [K|K]; discriminate|intros K; contradiction].
    Qed.

    Lemma value_on k t : nth_error index k = Some t -> (nth_error values k = Some 1%Z <-> switched trs centroids j t true).
    Proof.
      intros Ek. rewrite (values_are k t Ek). destruct (after_spec trs j t trs_nodup trs_ok) as [[-> H]|[[-> H]|[-> H]]].
      - split; [intros _; exact H|reflexivity].
      - split; [discriminate|]. intros C. discriminate (switch_unique trs j t false true trs_nodup H C).
      - split; [discriminate|]. intros C. exfalso. apply H. exists true. exact C.
    Qed.
    Lemma value_off k t : nth_error index k = Some t -> (nth_error values k = Some 0%Z <-> switched trs centroids j t false).
    Proof.
      intros Ek. rewrite (values_are k t Ek). destruct (after_spec trs j t trs_nodup trs_ok) as [[-> H]|[[-> H]|[-> H]]].
      - split; [discriminate|]. intros C. discriminate (switch_unique trs j t true false trs_nodup H C).
      - split; [intros _; exact H|reflexivity].
      - split; [discriminate|]. intros C. exfalso. apply H. exists false. exact C.
    Qed.

    Lemma on_spec prev k t t_last : nth_error index k = Some t -> last_opt index = Some t_last -> last_opt values = Some prev ->
      (on_before values prev k <-> on_at trs centroids j t_last t).
    Proof.
      intros Ek EL EP. assert (PL : nth_error index (length index - 1) = Some t_last) by (rewrite <- last_opt_nth; exact EL).
      assert (PV : nth_error values (length index - 1) = Some prev) by (rewrite <- values_length, <- last_opt_nth; exact EP).
      assert (B : forall m u, nth_error index m = Some u -> (m < k <-> (u < t)%Z)) by (intros m u Em; apply index_lt; assumption).
      unfold on_before, on_at. split.
      - intros [(_ & m & Lm & Em & N)|(N & P1 & P2)].
        + destruct (value_at m 1%Z Em) as (u & Eu & _). left. exists u. split; [apply (proj1 (B m u Eu)); exact Lm|]. split; [apply (value_on m u Eu); exact Em|].
          intros w Hw [up S]. destruct (switch_in w up S) as [x Ex]. pose proof (values_are x w Ex) as Hx. apply (N x _ (conj (proj2 (index_lt m x u w Eu Ex) ltac:(lia)) (proj2 (B x w Ex) ltac:(lia))) Hx).
          apply (known_switch x w Ex _ Hx). exists up. exact S.
        + right. split.
          * intros w Hw [up S]. destruct (switch_in w up S) as [x Ex]. pose proof (values_are x w Ex) as Hx. apply (N x _ (proj2 (B x w Ex) Hw) Hx). apply (known_switch x w Ex _ Hx). exists up. exact S.
          * apply (value_on _ _ PL). rewrite PV. f_equal. rewrite (values_are _ _ PL) in PV. injection PV as <-.
            destruct (after_spec trs j t_last trs_nodup trs_ok) as [[E _]|[[E _]|[E _]]]; [exact E|congruence|congruence].
      - intros [(u & Lu & S & N)|(N & S)].
        + left. split; [left; reflexivity|]. destruct (switch_in u true S) as [m Em]. exists m. split; [apply (proj2 (B m u Em)); exact Lu|]. split; [apply (value_on m u Em); exact S|].
          intros x v Lx Hv K. destruct (value_at x v Hv) as (w & Ew & _). apply (N w); [split; [apply (proj1 (index_lt m x u w Em Ew)); lia|apply (proj1 (B x w Ew)); lia]|]. apply (known_switch x w Ew v Hv). exact K.
        + right. split.
          * intros x v Lx Hv K. destruct (value_at x v Hv) as (w & Ew & _). apply (N w); [apply (proj1 (B x w Ew)); exact Lx|]. apply (known_switch x w Ew v Hv). exact K.
          * apply (value_on _ _ PL) in S. rewrite PV in S. injection S as ->. split; discriminate.
    Qed.

    Lemma column_follows prev col : last_opt values = Some prev -> assign_power 0%Z (truncate c) values prev = Ok col -> follows trs centroids index j c col.
    Proof.
      intros EP EA. unfold follows. destruct (assign_values 0%Z (truncate c) values prev) as (o & Eo & L & V). rewrite EA in Eo. injection Eo as <-.
      split; [congruence|]. split; [exact V|]. intros k t t_last Ek EL. pose proof (values_are k t Ek) as Hv. pose proof (on_spec prev k t t_last Ek EL EP) as O.
      split; [|split].
      - intros Lk NS. destruct (assign_between 0%Z (truncate c) values prev k _ Hv) as (o & Eo & H1 & H2).
        + intros K. apply NS. apply (known_switch k t Ek _ Hv). exact K.
        + rewrite values_length. exact Lk.
        + rewrite EA in Eo. injection Eo as <-. split; intros X; [apply H1|apply H2]; [apply O; exact X|intros C; apply X; apply O; exact C].
      - intros Lk S NO. apply (value_on k t Ek) in S. destruct (assign_at_on 0%Z (truncate c) values prev k S) as (o & Eo & _ & H2); [rewrite values_length; exact Lk|].
        rewrite EA in Eo. injection Eo as <-. apply H2. intros C. apply NO. apply O. exact C.
      - intros S NZ HC. apply (value_off k t Ek) in S. destruct (assign_at_off 0%Z (truncate c) values prev k S) as (o & Eo & H2). rewrite EA in Eo. injection Eo as <-.
        destruct (H2 HC ltac:(congruence)) as (p & -> & Ep). destruct (value_at p _ Ep) as (u & Eu & _). exists p, u. split; [reflexivity|]. split; [exact Eu|]. apply (value_on p u Eu). exact Ep.
    Qed.
  End Column.

  Lemma predict_ok trs : index <> [] -> trs <> [] -> NoDup (map fst trs) -> Forall in_time trs ->
    exists cols, predict index trs centroids = Ok cols /\ all_follow trs centroids index cols.
  Proof.
    intros NI NT N F. unfold predict. destruct (marks_ok trs F (map (fun _ => map (fun _ => (-1)%Z) index) centroids)) as (states & E & [S1 S2] & H).
    { split; [apply map_length|]. apply Forall_forall. intros col I. apply in_map_iff in I. destruct I as (_ & <- & _). apply map_length. }
    rewrite E. cbn [bind].
    assert (C : forall j col k t, nth_error states j = Some col -> nth_error index k = Some t -> nth_error col k = Some (after trs j t (-1))).
    { intros j col k t Ej Ek. assert (Lj : j < length centroids) by (rewrite <- S1; apply nth_error_Some; congruence).
      assert (X : cell states j k = Some (after trs j t (-1))).
      { apply (H j k t Ek Lj). unfold cell. rewrite nth_error_map. destruct (nth_error centroids j) eqn:Ec; [|apply nth_error_None in Ec; lia]. cbn. rewrite nth_error_map, Ek. reflexivity. }
      unfold cell in X. rewrite Ej in X. exact X. }
    assert (M : forall sts cs m, (forall i col, nth_error sts i = Some col -> nth_error states (m + i) = Some col) -> length sts = length cs ->
       exists cols, mapM (fun p : list Z * Q => match last_opt (fst p) with None => Err IndexError | Some prev => assign_power 0%Z (truncate (snd p)) (fst p) prev end) (combine sts cs) = Ok cols /\
         length cols = length cs /\ forall i c col, nth_error cs i = Some c -> nth_error cols i = Some col -> follows trs centroids index (m + i) c col).
    { induction sts as [|st sts IH]; intros cs m Hs L; destruct cs as [|c0 cs]; try discriminate L.
      - exists []. split; [reflexivity|]. split; [reflexivity|]. intros [|i] c col Hc; discriminate Hc.
      - destruct (IH cs (S m)) as (cols & Ec & Lc & Hc); [intros i col Hi; replace (S m + i) with (m + S i) by lia; apply Hs; exact Hi|injection L as L; exact L|].
        assert (Est : nth_error states m = Some st) by (replace m with (m + 0) by lia; apply Hs; reflexivity).
        assert (Lst : length st = length index) by (rewrite Forall_forall in S2; apply S2; apply nth_error_In in Est; exact Est).
        destruct (last_opt_some st) as [prev EP]; [intros ->; destruct index; [contradiction|discriminate]|].
        destruct (assign_values 0%Z (truncate c0) st prev) as (col0 & Ea & _). exists (col0 :: cols). cbn [combine mapM fst snd]. rewrite EP, Ea. cbn [bind]. rewrite Ec. cbn [bind].
        split; [reflexivity|]. split; [cbn; congruence|]. intros [|i] c col Hi1 Hi2.
        + cbn in Hi1, Hi2. injection Hi1 as <-. injection Hi2 as <-. rewrite Nat.add_0_r. apply (column_follows trs m c0 st N F Lst (fun k t Ek => C m st k t Est Ek) prev col0 EP Ea).
        + replace (m + S i) with (S m + i) by lia. apply Hc; assumption. }
    destruct (M states centroids 0 (fun i col X => X) S1) as (cols & Ec & Lc & Hc). rewrite Ec. cbn [bind]. exists cols. split.
    - destruct (last_opt_some trs NT) as [[u p] EL]. rewrite EL. destruct index; [contradiction|]. apply last_opt_in in EL. rewrite Forall_forall in F. destruct (F _ EL) as [[d Ed] _]. cbn in Ed. subst p. reflexivity.
    - split; [exact Lc|exact Hc].
  Qed.
End States.
