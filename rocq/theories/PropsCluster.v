(** C67: the power states of an appliance. *)
From Coq Require Import QArith Qround Qabs Lqa.
From Verif Require Import Base ClusterModel ClusterSpec ClusterProofs.
Import List. Open Scope list_scope. Open Scope nat_scope.

(** What is clustered: readings above 10 watts, all of them up to 2000, a random choice
    among them if there are more, and zeros if there are fewer than 20. *)
Theorem C67_samples : forall random data, draws random ->
  (count_on data < 20 -> transform random data = repeat 0%Q max_samples) /\
  (20 <= count_on data -> forall x, In x (transform random data) -> on_reading data x) /\
  (20 <= count_on data <= max_samples -> forall x, In x (transform random data) <-> on_reading data x) /\
  20 <= length (transform random data) <= max_samples.
Proof.
  intros random data D. destruct (transform_samples random data D) as (H1 & H2 & H3 & H4). split; [exact H1|]. split; [exact H2|]. split; [|exact H4].
  intros H x. rewrite (H3 H). apply above_in.
Qed.
Print Assumptions C67_samples.

(** The states are sorted without repetitions; off (0) is always among them; every other state is
    at least 10 watts and within half a watt of the range of the readings above
    10; and there are no more than asked for. *)
Theorem C67_states : forall kmeans silhouette random data max_num exact_num l, means kmeans -> draws random ->
  cluster kmeans silhouette random data max_num exact_num = Ok l ->
  ascending l /\ In 0%Z l /\
  (forall s, In s l -> s = 0%Z \/ (10 <= s)%Z /\ exists lo hi, on_reading data lo /\ on_reading data hi /\ (lo - (1 # 2) <= inject_Z s <= hi + (1 # 2))%Q) /\
  length l <= (match exact_num with Some n => Nat.max n 1 | None => Nat.max (max_num - 1) 1 end) + 1.
Proof. exact states. Qed.
Print Assumptions C67_states.

(** An appliance with fewer than 20 readings above 10 watts is always off. *)
Theorem C67_off : forall kmeans silhouette random data max_num exact_num l, means kmeans -> draws random ->
  count_on data < 20 -> cluster kmeans silhouette random data max_num exact_num = Ok l -> l = [0%Z].
Proof. exact few. Qed.
Print Assumptions C67_off.

(** The states are found for every series of readings, whatever KMeans raises, as long as
    at least 2 is given as the limit; with a limit of 1 or 0 there is a KeyError.  With an
    exact number of clusters the exceptions of KMeans are passed on. *)
Theorem C67_found : forall kmeans silhouette random data max_num,
  (2 <= max_num -> (forall X labels n cs, kmeans X n = Ok (labels, cs) -> n = 1 -> exists e, silhouette X labels = Err e) -> exists l, cluster kmeans silhouette random data max_num None = Ok l) /\
  (max_num <= 1 -> cluster kmeans silhouette random data max_num None = Err KeyError) /\
  (forall n e, cluster kmeans silhouette random data max_num (Some n) = Err e <-> kmeans (transform random data) n = Err e).
Proof. intros. split; [apply always|]. split; [apply none|]. intros n e. apply exact_fails. Qed.
Print Assumptions C67_found.

(** The number of clusters: of 2, 3, ... below the limit, the first with the best silhouette score;
    a single cluster only if none of them scores above -1. *)
Theorem C67_best : forall kmeans silhouette random data k (lab : nat -> list nat) (cen : nat -> list Q) (s : nat -> Q),
  (forall n, 1 <= n < S (S k) -> kmeans (transform random data) n = Ok (lab n, cen n)) ->
  (exists e, silhouette (transform random data) (lab 1) = Err e) ->
  (forall n, 2 <= n < S (S k) -> silhouette (transform random data) (lab n) = Ok (s n)) ->
  exists n, 1 <= n < S (S k) /\ cluster kmeans silhouette random data (S (S k)) None = Ok (unique (map round_half_even (cen n ++ [0%Q]))) /\
    (n = 1 -> forall m, 2 <= m < S (S k) -> (s m <= - (1))%Q) /\
    (2 <= n -> (- (1) < s n)%Q /\ forall m, 2 <= m < S (S k) -> (s m <= s n)%Q /\ (m < n -> (s m < s n)%Q)).
Proof. exact best. Qed.
Print Assumptions C67_best.

(** "Finds whether 2 or 3 gives a better score": with the default limit of 3 the clustering
    into two is always taken, never three, and never one. *)
Theorem C67_default_refuted : forall kmeans silhouette random data lab1 cen1 lab2 cen2,
  kmeans (transform random data) 1 = Ok (lab1, cen1) -> kmeans (transform random data) 2 = Ok (lab2, cen2) ->
  (exists e, silhouette (transform random data) lab1 = Err e) ->
  (forall s, silhouette (transform random data) lab2 = Ok s -> (- (1) < s)%Q) ->
  cluster kmeans silhouette random data 3 None = Ok (unique (map round_half_even (cen2 ++ [0%Q]))).
Proof. exact always_two. Qed.
Print Assumptions C67_default_refuted.

(** Hart's clusters: the centres named after a kind of power lie in the range of the mean step
    sizes of this kind, if the kinds are given in the usual order. *)
Theorem C67_hart : forall mean_shift pairs columns rows, centred mean_shift -> usual_order columns -> hart_clusters mean_shift pairs columns = Ok rows ->
  forall row t v, In row rows -> In (t, v) row ->
  exists p q, In p pairs /\ In q pairs /\ ((Qabs (fst (p t)) + Qabs (snd (p t))) / 2 <= v <= (Qabs (fst (q t)) + Qabs (snd (q t))) / 2)%Q.
Proof.
  intros ms pairs columns rows C U H row t v Ir Iv.
  assert (T : feature_types columns = columns) by (cbn in U; repeat (destruct U as [<-|U]; [reflexivity|]); destruct U).
  unfold hart_clusters in H. rewrite T, Nat.eqb_refl in H. destruct ((0 <? length columns)) eqn:E1; [|discriminate]. destruct (0 <? length pairs) eqn:E2; [|discriminate]. injection H as <-.
  apply in_map_iff in Ir. destruct Ir as (c & <- & Ic). destruct (C (map (fun p => map (feature p) columns) pairs) c (length columns)) as [Lc B]; [destruct pairs; discriminate| |exact Ic|].
  - intros r I. apply in_map_iff in I. destruct I as (p & <- & _). apply map_length.
  - destruct (In_nth _ _ (t, v) Iv) as (j & Lj & Ej). rewrite combine_length, Lc, Nat.min_id in Lj. rewrite combine_nth in Ej by (symmetry; exact Lc). injection Ej as Et Ev.
    destruct (B j Lj) as (r1 & r2 & I1 & I2 & L1 & L2). apply in_map_iff in I1, I2. destruct I1 as (p & <- & Ip), I2 as (q & <- & Iq). exists p, q. split; [exact Ip|]. split; [exact Iq|].
    assert (N : forall p, nth j (map (feature p) columns) 0%Q = feature p t) by (intros p'; rewrite (nth_indep _ 0%Q (feature p' t)) by (rewrite map_length; exact Lj); rewrite map_nth; f_equal; exact Et).
    rewrite N in L1, L2. rewrite (nth_indep c 0%Q v) in L1, L2 by lia. rewrite Ev in L1, L2. split; assumption.
Qed.
Print Assumptions C67_hart.
Theorem C67_hart_columns : forall mean_shift pairs columns, (exists t n, In t columns /\ t = OtherType n) \/ ~ NoDup columns -> hart_clusters mean_shift pairs columns = Err ValueError.
Proof.
  intros ms pairs columns H. unfold hart_clusters. destruct (Nat.eqb_spec (length (feature_types columns)) (length columns)) as [E|]; [|reflexivity]. exfalso.
  assert (N : NoDup (feature_types columns)) by (apply NoDup_filter; repeat constructor; cbn; intuition discriminate).
  assert (I : incl (feature_types columns) columns) by (intros t It; apply filter_In in It; destruct It as [_ It]; destruct (in_dec ptype_dec t columns); [assumption|discriminate]).
  destruct H as [(t & n & It & ->)|H].
  - assert (J : incl columns (feature_types columns)) by (apply NoDup_length_incl; [exact N|lia|exact I]). apply J in It. apply filter_In in It. destruct It as [It _]. cbn in It. intuition discriminate.
  - apply H. apply (NoDup_incl_NoDup N); [lia|exact I].
Qed.
Print Assumptions C67_hart_columns.

(** In another order the names are swapped. *)
Definition ex_pair : transition_pair := fun t => match t with Active => (100, - (100))%Q | _ => (7, - (7))%Q end.
Definition ex_shift (rows : list (list Q)) : list (list Q) := match rows with r :: _ => [r] | [] => [] end.
Lemma ex_shift_centred : centred ex_shift.
Proof.
  intros rows c k N L I. destruct rows as [|r rows]; [contradiction|]. destruct I as [<-|[]]. split; [apply L; left; reflexivity|]. intros j _. exists r, r. split; [left; reflexivity|]. split; [left; reflexivity|]. split; apply Qle_refl.
Qed.
Theorem C67_hart_order_refuted : exists mean_shift pairs columns rows row v, centred mean_shift /\ hart_clusters mean_shift pairs columns = Ok rows /\ In row rows /\ In (Reactive, v) row /\
  forall p, In p pairs -> ((Qabs (fst (p Reactive)) + Qabs (snd (p Reactive))) / 2 < v)%Q.
Proof.
  exists ex_shift, [ex_pair], [Reactive; Active], [[(Reactive, feature ex_pair Active); (Active, feature ex_pair Reactive)]], [(Reactive, feature ex_pair Active); (Active, feature ex_pair Reactive)], (feature ex_pair Active).
  split; [exact ex_shift_centred|]. split; [reflexivity|]. split; [left; reflexivity|]. split; [left; reflexivity|]. intros p [<-|[]]. reflexivity.
Qed.
Print Assumptions C67_hart_order_refuted.

(** The hypotheses are met: 30 readings of 100 watts and 10 of 2000 (and low and missing ones), which
    this KMeans clusters around the last and the first. *)
Definition ex_data : list (option Q) := None :: Some 5%Q :: repeat (Some 100%Q) 30 ++ repeat (Some 2000%Q) 10.
Definition ex_kmeans2 (X : list Q) (n : nat) : res clustering := match X with [] => Err ValueError | x :: _ => Ok ([n], match n with 0 => [] | S m => last X 0%Q :: repeat x m end) end.
Definition ex_silhouette (X : list Q) (labels : list nat) : res Q := match labels with [S (S _)] => Ok (1 # 2) | _ => Err ValueError end.
Definition ex_random (n : nat) : list nat := repeat 0 max_samples.
Example C67_example : means ex_kmeans2 /\ draws ex_random /\
  cluster ex_kmeans2 ex_silhouette ex_random ex_data 3 None = Ok [0%Z; 100%Z; 2000%Z] /\
  cluster ex_kmeans2 ex_silhouette ex_random (Some 50%Q :: ex_data) 2 None = Ok [0%Z; 2000%Z] /\
  cluster ex_kmeans2 ex_silhouette ex_random ex_data 1 None = Err KeyError /\
  cluster ex_kmeans2 ex_silhouette ex_random ex_data 3 (Some 1) = Ok [0%Z; 2000%Z].
Proof.
  split.
  - intros X n labels cs N H. destruct X as [|x X]; [contradiction|]. injection H as _ <-. assert (L : In (last (x :: X) 0%Q) (x :: X)) by (clear; revert x; induction X as [|y X IH]; intros x; [left; reflexivity|right; apply IH]).
    destruct n as [|n]; [split; [reflexivity|intros c []]|]. cbn [length]. rewrite repeat_length. split; [reflexivity|]. intros c [<-|I].
    + exists (last (x :: X) 0%Q), (last (x :: X) 0%Q). split; [exact L|]. split; [exact L|]. split; apply Qle_refl.
    + apply repeat_spec in I. subst c. exists x, x. split; [left; reflexivity|]. split; [left; reflexivity|]. split; apply Qle_refl.
  - split; [intros n P; split; [apply repeat_length|]; intros i I; apply repeat_spec in I; lia|]. repeat split.
Qed.
Example C67_example_best : let X := transform ex_random ex_data in
  (exists lab cen, ex_kmeans2 X 1 = Ok (lab, cen) /\ ex_silhouette X lab = Err ValueError) /\ (exists lab cen, ex_kmeans2 X 2 = Ok (lab, cen) /\ ex_silhouette X lab = Ok (1 # 2)).
Proof. split; eexists; eexists; split; reflexivity. Qed.
Example C67_example_off : count_on (repeat (Some 100%Q) 19) = 19 /\ cluster ex_kmeans2 ex_silhouette ex_random (repeat (Some 100%Q) 19) 3 None = Ok [0%Z].
Proof. split; reflexivity. Qed.
Example C67_example_hart : centred ex_shift /\ usual_order [Active; Reactive] /\ hart_clusters ex_shift [ex_pair] [Active; Reactive] = Ok [[(Active, feature ex_pair Active); (Reactive, feature ex_pair Reactive)]].
Proof. split; [exact ex_shift_centred|]. split; [cbn; tauto|reflexivity]. Qed.
