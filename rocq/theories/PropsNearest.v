(** C29, C30, C33: nearest values, combinatorial optimisation, Mean. *)
From Verif Require Import Base NearestModel NearestSpec NearestProofs.
From Coq Require Import QArith Qabs Permutation.
Open Scope nat_scope.

(** ** C29 *)

(** For every target the index is that of a closest element and the residual is
    target minus that element, whichever order [argsort] gives equal elements. *)
Theorem C29_closest : forall known order targets, sorts order known -> known <> [] ->
  exists out, find_nearest known order (map Some targets) = Ok out /\
    Forall2 (fun t o => exists x, nth_error known (fst o) = Some x /\ (forall y, In y known -> (Z.abs (t - x) <= Z.abs (t - y))%Z) /\
                                  snd o = Some (t - x)%Z) targets out.
Proof.
  intros known order targets H1 H2. destruct (find_nearest_spec known order (map Some targets) H1 H2) as (out & E & F).
  exists out. split; [exact E|]. clear E. revert out F. induction targets as [|t ts IH]; intros out F; inversion F as [|? o ? os Ho Hos]; subst; constructor.
  - destruct Ho as (x & Hx & (x' & Hx' & Hc) & Hr). exists x. replace x with x' in * by congruence. auto.
  - apply IH. exact Hos.
Qed.
Print Assumptions C29_closest.

(** A missing target (NaN) gets the largest element and a missing residual. *)
Theorem C29_missing_target : forall known order targets, sorts order known -> known <> [] ->
  exists out, find_nearest known order targets = Ok out /\
    Forall2 (fun t o => t = None -> exists x, nth_error known (fst o) = Some x /\ (forall y, In y known -> (y <= x)%Z) /\ snd o = None) targets out.
Proof.
  intros known order targets H1 H2. destruct (find_nearest_spec known order targets H1 H2) as (out & E & F).
  exists out. split; [exact E|]. clear E. induction F as [|t o ts os Ho _ IH]; constructor; [|exact IH]. intros ->. destruct Ho as (x & Hx & H & Hr). eauto.
Qed.
Print Assumptions C29_missing_target.

(** With no known values any target raises. *)
Theorem C29_no_values : forall order t targets, sorts order [] -> find_nearest [] order (t :: targets) = Err IndexError.
Proof. exact find_nearest_empty. Qed.
Print Assumptions C29_no_values.

Example C29_example : sorts [2; 0; 1; 3] [5; 7; 2; 7]%Z /\
  find_nearest [5; 7; 2; 7]%Z [2; 0; 1; 3] [Some 6; Some 100; Some (-4); Some 3; Some 7; None]%Z =
  Ok [(1, Some (-1)%Z); (3, Some 93%Z); (2, Some (-6)%Z); (2, Some 1%Z); (1, Some 0%Z); (3, None)].
Proof.
  split; [|reflexivity]. split.
  - change (seq 0 _) with [0; 1; 2; 3]. apply Permutation_trans with (l' := [0; 2; 1; 3]); [constructor|]. constructor. constructor.
  - intros i j a b Hij Hi Hj. destruct i as [|[|[|[|[|i]]]]], j as [|[|[|[|[|j]]]]]; cbn in Hi, Hj; try lia; try discriminate;
      injection Hi as <-; injection Hj as <-; (eexists; eexists; split; [reflexivity|]; split; [reflexivity|]; lia).
Qed.

(** ** C30 *)

(** For every mains reading CO assigns each appliance one of its states, and no
    combination of states has a total closer to the reading. *)
Theorem C30_optimal : forall argsort states mains, (forall l, sorts (argsort l) l) -> Forall (fun s => s <> []) states ->
  exists out, co_disaggregate argsort states (map Some mains) = Ok out /\
    Forall2 (fun t c => combination states c /\ forall c', combination states c' -> (Z.abs (t - sumZ c) <= Z.abs (t - sumZ c'))%Z) mains out.
Proof.
  intros argsort states mains H1 H2. destruct (co_optimal argsort states (map Some mains) H1 H2) as (out & E & F).
  exists out. split; [exact E|]. clear E. revert out F. induction mains as [|t ts IH]; intros out F; inversion F as [|? o ? os Ho Hos]; subst; constructor; auto.
Qed.
Print Assumptions C30_optimal.

(** A missing mains reading is not skipped: every appliance is reported in a
    combination of highest total power. *)
Theorem C30_missing_reading : forall argsort states mains, (forall l, sorts (argsort l) l) -> Forall (fun s => s <> []) states ->
  exists out, co_disaggregate argsort states mains = Ok out /\
    Forall2 (fun t c => t = None -> combination states c /\ forall c', combination states c' -> (sumZ c' <= sumZ c)%Z) mains out.
Proof.
  intros argsort states mains H1 H2. destruct (co_optimal argsort states mains H1 H2) as (out & E & F).
  exists out. split; [exact E|]. clear E. induction F as [|t o ts os Ho _ IH]; constructor; [|exact IH]. intros ->. exact Ho.
Qed.
Print Assumptions C30_missing_reading.

(** A correct [argsort] exists. *)
Example C30_hypotheses : exists argsort, forall l, sorts (argsort l) l.
Proof. exact argsort_exists. Qed.

Example C30_example : forall argsort, (forall l, sorts (argsort l) l) ->
  exists r, co_disaggregate argsort [[0; 50; 100]; [0; 30]]%Z [Some 85; Some 10; None]%Z = Ok r /\ r = [[50; 30]; [0; 0]; [100; 30]]%Z.
Proof.
  intros argsort H. destruct (co_optimal argsort [[0; 50; 100]; [0; 30]]%Z [Some 85; Some 10; None]%Z H) as (out & E & F); [repeat constructor; discriminate|].
  exists out. split; [exact E|]. clear E.
  assert (C : forall a b, In a [0; 50; 100]%Z -> In b [0; 30]%Z -> combination [[0; 50; 100]; [0; 30]]%Z [a; b]) by (intros a b Ha Hb; constructor; [exact Ha|constructor; [exact Hb|constructor]]).
  assert (I : forall c, combination [[0; 50; 100]; [0; 30]]%Z c -> exists a b, c = [a; b] /\ In a [0; 50; 100]%Z /\ In b [0; 30]%Z).
  { intros c Hc. inversion Hc as [|? a ? r Ha Hr]; subst. inversion Hr as [|? b ? r' Hb Hr']; subst. inversion Hr'; subst. eauto. }
  inversion F as [|? c1 ? o1 H1 F1]; subst. inversion F1 as [|? c2 ? o2 H2 F2]; subst. inversion F2 as [|? c3 ? o3 H3 F3]; subst. inversion F3; subst.
  destruct H1 as [K1 H1]. destruct H2 as [K2 H2]. destruct H3 as [K3 H3].
  specialize (H1 [50; 30]%Z (C 50 30 ltac:(cbn; tauto) ltac:(cbn; tauto))%Z). specialize (H2 [0; 0]%Z (C 0 0 ltac:(cbn; tauto) ltac:(cbn; tauto))%Z). specialize (H3 [100; 30]%Z (C 100 30 ltac:(cbn; tauto) ltac:(cbn; tauto))%Z).
  destruct (I _ K1) as (a1 & b1 & -> & A1 & B1). destruct (I _ K2) as (a2 & b2 & -> & A2 & B2). destruct (I _ K3) as (a3 & b3 & -> & A3 & B3).
  cbn in A1, B1, A2, B2, A3, B3, H1, H2, H3. 
  f_equal; [|f_equal; [|f_equal]].
  - destruct A1 as [<-|[<-|[<-|[]]]], B1 as [<-|[<-|[]]]; cbn in H1; try lia; reflexivity.
  - destruct A2 as [<-|[<-|[<-|[]]]], B2 as [<-|[<-|[]]]; cbn in H2; try lia; reflexivity.
  - destruct A3 as [<-|[<-|[<-|[]]]], B3 as [<-|[<-|[]]]; cbn in H3; try lia; reflexivity.
Qed.

(** ** C33 *)

(** If the readings of each call add up to a whole number and none is missing,
    the prediction is exactly the mean of all readings, for every chunking. *)
Theorem C33_mean_partial : forall calls rows, all_readings calls <> [] -> ~ In None (all_readings calls) ->
  Forall (fun c => exists z, (qsum (present_readings (concat c)) == inject_Z z)%Q) calls ->
  exists v, mean_predict (mean_fit calls) rows = Ok (repeat v rows) /\
    (v * inject_Z (Z.of_nat (length (present_readings (all_readings calls)))) == qsum (present_readings (all_readings calls)))%Q.
Proof. intros calls rows H1 H2 H3. rewrite (present_all _ H2). exact (mean_exact calls rows H1 H3). Qed.
Print Assumptions C33_mean_partial.

(** In general the total is off by at most one per call of [partial_fit]. *)
Theorem C33_bound : forall calls rows, all_readings calls <> [] -> ~ In None (all_readings calls) ->
  exists v, mean_predict (mean_fit calls) rows = Ok (repeat v rows) /\
    (Qabs (v * inject_Z (Z.of_nat (length (present_readings (all_readings calls)))) - qsum (present_readings (all_readings calls)))
     <= inject_Z (Z.of_nat (length calls)))%Q.
Proof. intros calls rows H1 H2. rewrite (present_all _ H2). exact (mean_bound calls rows H1). Qed.
Print Assumptions C33_bound.

(** Missing readings count as readings of 0 W. *)
Theorem C33_missing_is_zero : forall calls rows, all_readings calls <> [] ->
  exists v, mean_predict (mean_fit calls) rows = Ok (repeat v rows) /\
    (Qabs (v * inject_Z (Z.of_nat (length (all_readings calls))) - qsum (present_readings (all_readings calls)))
     <= inject_Z (Z.of_nat (length calls)))%Q.
Proof. exact mean_bound. Qed.
Print Assumptions C33_missing_is_zero.

(** Without any training row, prediction raises. *)
Theorem C33_untrained : forall calls rows, all_readings calls = [] -> mean_predict (mean_fit calls) rows = Err ZeroDivisionError.
Proof. exact mean_untrained. Qed.
Print Assumptions C33_untrained.

(** The same readings give different predictions when chunked differently. *)
Theorem C33_chunking_refuted : exists a b, all_readings a = all_readings b /\ ~ In None (all_readings a) /\
  exists va vb, mean_predict (mean_fit a) 1 = Ok [va] /\ mean_predict (mean_fit b) 1 = Ok [vb] /\ ~ (va == vb)%Q.
Proof.
  exists [[[Some (1 # 2)%Q; Some (1 # 2)%Q]]], [[[Some (1 # 2)%Q]]; [[Some (1 # 2)%Q]]].
  split; [reflexivity|]. split; [cbn; intros [H|[H|[]]]; discriminate|]. exists (1 / 2)%Q, (0 / 2)%Q. split; [reflexivity|]. split; [reflexivity|]. intros H. discriminate.
Qed.
Print Assumptions C33_chunking_refuted.

(** A missing training reading lowers the prediction below every reading. *)
Theorem C33_missing_refuted : exists calls v, mean_predict (mean_fit calls) 1 = Ok [v] /\ present_readings (all_readings calls) <> [] /\
  forall x, In x (present_readings (all_readings calls)) -> (v < x)%Q.
Proof.
  exists [[[Some 10%Q; None]]], (10 / 2)%Q. split; [reflexivity|]. split; [discriminate|]. cbn. intros x [<-|[]]. reflexivity.
Qed.
Print Assumptions C33_missing_refuted.

Example C33_example :
  let calls := [[[Some 10; Some (1 # 2)]; [Some (3 # 2)]]; [[Some 20]]]%Q in
  all_readings calls <> [] /\ ~ In None (all_readings calls) /\
  Forall (fun c => exists z, (qsum (present_readings (concat c)) == inject_Z z)%Q) calls /\
  exists v, mean_predict (mean_fit calls) 2 = Ok [v; v] /\ (v == 8)%Q.
Proof.
  cbv zeta. split; [discriminate|]. split; [cbn; intuition discriminate|]. split.
  - constructor; [exists 12%Z; reflexivity|]. constructor; [exists 20%Z; reflexivity|constructor].
  - exists (32 / 4)%Q. split; reflexivity.
Qed.
