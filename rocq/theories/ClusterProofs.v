(** Proofs about the power states of appliances. *)
From Coq Require Import QArith Qround Qabs Lqa.
From Verif Require Import Base ClusterModel ClusterSpec.
Import List. Open Scope list_scope. Open Scope nat_scope.

(** ** Samples *)
Lemma above_in data x : In x (flat_map above data) <-> on_reading data x.
Proof.
  unfold on_reading. rewrite in_flat_map. split.
  - intros ([v|] & I & H); cbn [above] in H; [|destruct H]. destruct (Qle_bool v data_threshold) eqn:E; [destruct H|]. destruct H as [<-|[]]. split; [exact I|].
    apply Qnot_le_lt. intros L. apply Qle_bool_iff in L. unfold data_threshold in E. congruence.
  - intros [I L]. exists (Some x). split; [exact I|]. cbn [above]. destruct (Qle_bool x data_threshold) eqn:E; [|left; reflexivity].
    apply Qle_bool_iff in E. unfold data_threshold in E. exfalso. apply (Qlt_not_le _ _ L E).
Qed.
Lemma above_count data : length (flat_map above data) = count_on data.
Proof.
  induction data as [|[v|] d IH]; [reflexivity| |exact IH]. cbn [flat_map above count_on]. rewrite app_length, IH. destruct (Qlt_le_dec 10 v) as [L|L].
  - destruct (Qle_bool v data_threshold) eqn:E; [|reflexivity]. apply Qle_bool_iff in E. exfalso. apply (Qlt_not_le _ _ L E).
  - apply Qle_bool_iff in L. unfold data_threshold. rewrite L. reflexivity.
Qed.
Lemma max_pos : 0 < max_samples. Proof. unfold max_samples. lia. Qed.
Lemma max_min : min_samples <= max_samples. Proof. unfold max_samples, min_samples. lia. Qed.
Lemma transform_samples random data : draws random ->
  (count_on data < min_samples -> transform random data = repeat 0%Q max_samples) /\
  (min_samples <= count_on data -> forall x, In x (transform random data) -> on_reading data x) /\
  (min_samples <= count_on data <= max_samples -> transform random data = flat_map above data) /\
  min_samples <= length (transform random data) <= max_samples.
Proof.
  intros D. unfold transform. rewrite above_count. pose proof max_min as MM. destruct (Nat.ltb_spec (count_on data) min_samples) as [L|L].
  - split; [reflexivity|]. split; [lia|]. split; [lia|]. rewrite repeat_length. lia.
  - destruct (Nat.ltb_spec max_samples (count_on data)) as [G|G].
    + destruct (D (count_on data)) as [DL DI]; [pose proof max_pos; lia|]. split; [lia|]. split; [|split; [lia|rewrite map_length; lia]].
      intros _ x I. apply in_map_iff in I. destruct I as (i & <- & Ii). apply above_in. apply nth_In. rewrite above_count. apply DI, Ii.
    + split; [lia|]. split; [intros _ x I; apply above_in, I|]. split; [reflexivity|]. rewrite above_count. lia.
Qed.
Lemma transform_nonempty random data : draws random -> transform random data <> [].
Proof. intros D E. destruct (transform_samples random data D) as (_ & _ & _ & [L _]). rewrite E in L. unfold min_samples in L. cbn in L. lia. Qed.

(** ** Rounding *)
Lemma round_near q : (Qabs (inject_Z (round_half_even q) - q) <= 1 # 2)%Q.
Proof.
  unfold round_half_even. pose proof (Qfloor_le q) as L. pose proof (Qlt_floor q) as U. rewrite inject_Z_plus in U. change (inject_Z 1) with 1%Q in U.
  apply Qabs_Qle_condition. set (f := Qfloor q) in *.
  destruct (Qcompare (q - inject_Z f) (1 # 2)) eqn:E.
  - apply Qeq_alt in E. destruct (Z.even f); rewrite ?inject_Z_plus; change (inject_Z 1) with 1%Q; split; lra.
  - apply Qlt_alt in E. split; lra.
  - apply Qgt_alt in E. rewrite inject_Z_plus. change (inject_Z 1) with 1%Q. split; lra.
Qed.
Lemma round_ge n q : (inject_Z n <= q)%Q -> (n <= round_half_even q)%Z.
Proof.
  intros H. apply Qfloor_resp_le in H. rewrite Qfloor_Z in H. unfold round_half_even. destruct (Qcompare _ _); [destruct (Z.even _)|..]; lia.
Qed.
Lemma round_zero q : (q == 0)%Q -> round_half_even q = 0%Z.
Proof.
  intros H. assert (F : Qfloor q = 0%Z) by (rewrite H; reflexivity). unfold round_half_even. rewrite F. assert (C : Qcompare (q - inject_Z 0) (1 # 2) = Lt); [|rewrite C; reflexivity]. apply Qlt_alt. rewrite H. reflexivity.
Qed.

(** ** Sorting *)
Lemma insert_in x l y : In y (insert x l) <-> y = x \/ In y l.
Proof.
  induction l as [|z l IH]; cbn [insert]; [cbn; intuition congruence|]. destruct (Z.ltb_spec x z); [cbn; intuition congruence|]. destruct (Z.eqb_spec x z); [subst; cbn; intuition congruence|]. cbn [In]. rewrite IH. intuition congruence.
Qed.
Lemma unique_in l y : In y (unique l) <-> In y l.
Proof. induction l as [|x l IH]; [reflexivity|]. cbn [unique fold_right]. rewrite insert_in. fold (unique l). rewrite IH. cbn. intuition congruence. Qed.
Lemma insert_length x l : length (insert x l) <= S (length l).
Proof. induction l as [|z l IH]; cbn [insert]; [cbn; lia|]. destruct (x <? z)%Z; [cbn; lia|]. destruct (x =? z)%Z; cbn in *; lia. Qed.
Lemma unique_length l : length (unique l) <= length l.
Proof. induction l as [|x l IH]; [cbn; lia|]. cbn [unique fold_right length]. fold (unique l). pose proof (insert_length x (unique l)). lia. Qed.
Fixpoint asc (l : list Z) : Prop := match l with [] => True | x :: l' => (forall y, In y l' -> (x < y)%Z) /\ asc l' end.
Lemma insert_asc x l : asc l -> asc (insert x l).
Proof.
  induction l as [|z l IH]; cbn [insert asc]; [intros _; split; [intros ? []|exact I]|]. intros [H A]. destruct (Z.ltb_spec x z).
  - cbn [asc]. split; [|split; assumption]. intros y [<-|I]; [assumption|]. specialize (H y I). lia.
  - destruct (Z.eqb_spec x z); [cbn [asc]; split; assumption|]. cbn [asc]. split; [|apply IH, A]. intros y I. apply insert_in in I. destruct I as [->|I]; [lia|apply H, I].
Qed.
Lemma unique_asc l : asc (unique l).
Proof. induction l as [|x l IH]; [exact I|]. cbn [unique fold_right]. apply insert_asc, IH. Qed.
Lemma asc_ascending l : asc l -> ascending l.
Proof.
  induction l as [|x l IH]; intros A i j a b L Ha Hb; [destruct i; discriminate|]. destruct A as [H A]. destruct j as [|j]; [lia|]. cbn in Hb. destruct i as [|i]; cbn in Ha.
  - injection Ha as <-. apply H. eapply nth_error_In. exact Hb.
  - apply (IH A i j a b); [lia|assumption|assumption].
Qed.

(** ** Choosing the number of clusters *)
Section Choice.
Variable kmeans : list Q -> nat -> res clustering.
Variable silhouette : list Q -> list nat -> res Q.
Notation choose := (choose kmeans silhouette).

(** The result is one of the clusterings that were tried, [0], or KeyError. *)
Lemma choose_from X ns : forall sh best found, (forall n, best = Some n -> exists l, kmeans X n = Ok (l, found n)) ->
  (exists n l cs, (In n ns \/ best = Some n) /\ kmeans X n = Ok (l, cs) /\ choose X ns sh best found = Ok cs) \/
  choose X ns sh best found = Ok [0%Q] \/ (choose X ns sh best found = Err KeyError /\ best = None /\ forall n, In n ns -> exists c, kmeans X n = Ok c).
Proof.
  induction ns as [|n ns IH]; intros sh best found H; cbn [ClusterModel.choose].
  - destruct best as [m|]; cbn [centres_of].
    + left. destruct (H m eq_refl) as [l E]. exists m, l, (found m). split; [right; reflexivity|]. split; [exact E|reflexivity].
    + right. right. split; [reflexivity|]. split; [reflexivity|intros ? []].
  - destruct (kmeans X n) as [[labels centres]|e] eqn:E.
    + assert (step : forall sh' best', (best' = best \/ best' = Some n) ->
        (exists m l cs, (In m (n :: ns) \/ best = Some m) /\ kmeans X m = Ok (l, cs) /\ choose X ns sh' best' (fun m => if m =? n then centres else found m) = Ok cs) \/
        choose X ns sh' best' (fun m => if m =? n then centres else found m) = Ok [0%Q] \/
        (choose X ns sh' best' (fun m => if m =? n then centres else found m) = Err KeyError /\ best' = None /\ forall m, In m (n :: ns) -> exists c, kmeans X m = Ok c)).
      { intros sh' best' Hb. destruct (IH sh' best' (fun m => if m =? n then centres else found m)) as [(m & l & cs & I & Em & Ec)|[Ec|(Ec & Eb & A)]].
        - intros m Em. destruct (Nat.eqb_spec m n) as [->|N]; [exists labels; exact E|]. destruct Hb as [->| ->]; [apply H, Em|congruence].
        - left. exists m, l, cs. split; [|split; [exact Em|exact Ec]]. destruct I as [I|I]; [left; right; exact I|]. destruct Hb as [->| ->]; [right; exact I|injection I as <-; left; left; reflexivity].
        - right. left. exact Ec.
        - right. right. split; [exact Ec|]. split; [exact Eb|]. intros m [<-|I]; [eexists; exact E|apply A, I]. }
      destruct (silhouette X labels) as [s|].
      * destruct (Qle_bool s sh).
        -- destruct (step sh best (or_introl eq_refl)) as [P|[P|(P & Q & R)]]; [left; exact P|right; left; exact P|right; right; repeat split; assumption].
        -- destruct (step s (Some n) (or_intror eq_refl)) as [P|[P|(P & Q & R)]]; [left; exact P|right; left; exact P|discriminate].
      * destruct (step sh (Some n) (or_intror eq_refl)) as [P|[P|(P & Q & R)]]; [left; exact P|right; left; exact P|discriminate].
    + destruct best as [m|]; [|right; left; reflexivity]. left. destruct (H m eq_refl) as [l Em]. exists m, l, (found m). split; [right; reflexivity|]. split; [exact Em|reflexivity].
Qed.
Lemma choose_some X n ns sh found : exists cs, choose X ns sh (Some n) found = Ok cs.
Proof.
  revert n sh found. induction ns as [|m ns IH]; intros n sh found; cbn [ClusterModel.choose]; [eexists; reflexivity|].
  destruct (kmeans X m) as [[labels centres]|]; [|eexists; reflexivity]. destruct (silhouette X labels) as [s|]; [destruct (Qle_bool s sh); apply IH|apply IH].
Qed.

(** The best score wins, the first of equal ones. *)
Lemma choose_best X (lab : nat -> list nat) (cen : nat -> list Q) (s : nat -> Q) : forall k a sh b found, b < a ->
  (forall n, a <= n < a + k -> kmeans X n = Ok (lab n, cen n) /\ silhouette X (lab n) = Ok (s n)) ->
  (choose X (seq a k) sh (Some b) found = Ok (found b) /\ forall m, a <= m < a + k -> (s m <= sh)%Q) \/
  (exists n, a <= n < a + k /\ choose X (seq a k) sh (Some b) found = Ok (cen n) /\ (sh < s n)%Q /\ forall m, a <= m < a + k -> (s m <= s n)%Q /\ (m < n -> (s m < s n)%Q)).
Proof.
  induction k as [|k IH]; intros a sh b found L H; cbn [seq ClusterModel.choose]; [left; split; [reflexivity|lia]|].
  destruct (H a) as [Ek Es]; [lia|]. rewrite Ek, Es. set (found' := fun m => if m =? a then cen a else found m).
  assert (H' : forall n, S a <= n < S a + k -> kmeans X n = Ok (lab n, cen n) /\ silhouette X (lab n) = Ok (s n)) by (intros n Hn; apply H; lia).
  destruct (Qle_bool (s a) sh) eqn:E.
  - apply Qle_bool_iff in E. destruct (IH (S a) sh b found') as [[Ec A]|(n & Hn & Ec & G & A)]; [lia|exact H'| |].
    + left. rewrite Ec. split; [unfold found'; destruct (Nat.eqb_spec b a); [lia|reflexivity]|]. intros m Hm. destruct (Nat.eq_dec m a) as [->|N]; [exact E|]. apply A. lia.
    + right. exists n. split; [lia|]. split; [exact Ec|]. split; [exact G|]. intros m Hm. destruct (Nat.eq_dec m a) as [->|N]; [split; [lra|intros _; lra]|]. apply A. lia.
  - assert (G0 : (sh < s a)%Q) by (apply Qnot_le_lt; intros Le; apply Qle_bool_iff in Le; congruence).
    destruct (IH (S a) (s a) a found') as [[Ec A]|(n & Hn & Ec & G & A)]; [lia|exact H'| |].
    + right. exists a. split; [lia|]. rewrite Ec. split; [unfold found'; rewrite Nat.eqb_refl; reflexivity|]. split; [exact G0|]. intros m Hm. destruct (Nat.eq_dec m a) as [->|N]; [split; [lra|lia]|]. split; [apply A; lia|lia].
    + right. exists n. split; [lia|]. split; [exact Ec|]. split; [lra|]. intros m Hm. destruct (Nat.eq_dec m a) as [->|N]; [split; [lra|intros _; lra]|]. apply A. lia.
Qed.
End Choice.

Section Results.
Variable kmeans : list Q -> nat -> res clustering.
Variable silhouette : list Q -> list nat -> res Q.
Variable random : nat -> list nat.
Notation cluster := (cluster kmeans silhouette random).

(** The centres behind a result. *)
Lemma cluster_centres data max_num exact_num l : cluster data max_num exact_num = Ok l ->
  exists cs, l = unique (map round_half_even (cs ++ [0%Q])) /\
    (cs = [0%Q] \/ exists n labels, kmeans (transform random data) n = Ok (labels, cs) /\ match exact_num with Some m => n = m | None => 1 <= n < max_num end).
Proof.
  unfold ClusterModel.cluster. destruct (apply_clustering _ _ _ _ _) as [cs|] eqn:E; [|discriminate]. cbn [bind]. intros [= <-]. exists cs. split; [reflexivity|].
  unfold apply_clustering in E. destruct exact_num as [m|].
  - destruct (kmeans _ m) as [[labels c]|] eqn:K; [|discriminate]. injection E as <-. right. exists m, labels. split; [exact K|reflexivity].
  - destruct (choose_from kmeans silhouette (transform random data) (seq 1 (max_num - 1)) (- (1))%Q None (fun _ => [])) as [(n & lb & c & I & K & C)|[C|(C & _)]]; [discriminate| | |].
    + right. rewrite C in E. injection E as <-. destruct I as [I|I]; [|discriminate]. apply in_seq in I. exists n, lb. split; [exact K|lia].
    + left. congruence.
    + congruence.
Qed.
Lemma states data max_num exact_num l : means kmeans -> draws random -> cluster data max_num exact_num = Ok l ->
  ascending l /\ In 0%Z l /\
  (forall s, In s l -> s = 0%Z \/ (10 <= s)%Z /\ exists lo hi, on_reading data lo /\ on_reading data hi /\ (lo - (1 # 2) <= inject_Z s <= hi + (1 # 2))%Q) /\
  length l <= (match exact_num with Some n => Nat.max n 1 | None => Nat.max (max_num - 1) 1 end) + 1.
Proof.
  intros M D H. destruct (cluster_centres _ _ _ _ H) as (cs & -> & C). split; [apply asc_ascending, unique_asc|]. split; [|split].
  - apply unique_in. rewrite map_app. apply in_or_app. right. left. reflexivity.
  - intros s I. apply (proj1 (unique_in _ _)) in I. rewrite map_app in I. apply in_app_or in I. destruct I as [I|[<-|[]]]; [|left; reflexivity].
    apply in_map_iff in I. destruct I as (c & <- & Ic). destruct C as [->|(n & labels & K & _)]; [destruct Ic as [<-|[]]; left; reflexivity|].
    destruct (M _ _ _ _ (transform_nonempty random data D) K) as [_ B]. destruct (B c Ic) as (lo & hi & Il & Ih & L1 & L2).
    destruct (transform_samples random data D) as (Z1 & Z2 & _). destruct (Nat.lt_ge_cases (count_on data) min_samples) as [F|F].
    + left. rewrite (Z1 F) in Il, Ih. apply repeat_spec in Il, Ih. subst. apply round_zero. apply Qle_antisym; assumption.
    + right. specialize (Z2 F). pose proof (Z2 lo Il) as Ol. pose proof (Z2 hi Ih) as Oh. split.
      * apply round_ge. change (inject_Z 10) with 10%Q. destruct Ol as [_ G]. lra.
      * exists lo, hi. split; [exact Ol|]. split; [exact Oh|]. pose proof (round_near c) as R. apply Qabs_Qle_condition in R. destruct R as [R1 R2]. split; lra.
  - pose proof (unique_length (map round_half_even (cs ++ [0%Q]))) as U. rewrite map_length, app_length in U. cbn [length] in U. destruct C as [->|(n & labels & K & N)].
    + cbn [length] in U. destruct exact_num; lia.
    + destruct (M _ _ _ _ (transform_nonempty random data D) K) as [E _]. destruct exact_num; lia.
Qed.

Lemma few data max_num exact_num l : means kmeans -> draws random -> count_on data < min_samples -> cluster data max_num exact_num = Ok l -> l = [0%Z].
Proof.
  intros M D F H. destruct (cluster_centres _ _ _ _ H) as (cs & -> & C).
  assert (Z : forall s, In s (map round_half_even (cs ++ [0%Q])) -> s = 0%Z).
  { intros s I. rewrite map_app in I. apply in_app_or in I. destruct I as [I|[<-|[]]]; [|reflexivity]. apply in_map_iff in I. destruct I as (c & <- & Ic). destruct C as [->|(n & labels & K & _)]; [destruct Ic as [<-|[]]; reflexivity|].
    destruct (M _ _ _ _ (transform_nonempty random data D) K) as [_ B]. destruct (B c Ic) as (lo & hi & Il & Ih & L1 & L2). destruct (transform_samples random data D) as (Z1 & _). rewrite (Z1 F) in Il, Ih. apply repeat_spec in Il, Ih. subst. apply round_zero. apply Qle_antisym; assumption. }
  assert (G : forall k, k <> [] -> (forall s, In s k -> s = 0%Z) -> unique k = [0%Z]).
  { induction k as [|x k IH]; [contradiction|]. intros _ A. cbn [unique fold_right]. fold (unique k). rewrite (A x (or_introl eq_refl)). destruct k as [|y k]; [reflexivity|]. rewrite IH; [reflexivity|discriminate|]. intros s I. apply A. right. exact I. }
  apply G; [|exact Z]. rewrite map_app. destruct (map round_half_even cs); discriminate.
Qed.

Lemma always data max_num : 2 <= max_num -> (forall X labels n cs, kmeans X n = Ok (labels, cs) -> n = 1 -> exists e, silhouette X labels = Err e) -> exists l, cluster data max_num None = Ok l.
Proof.
  intros L S. unfold ClusterModel.cluster, apply_clustering. destruct max_num as [|[|k]]; [lia|lia|]. cbn [Nat.sub seq ClusterModel.choose]. 
  destruct (kmeans (transform random data) 1) as [[labels c]|] eqn:K; [|eexists; reflexivity]. destruct (S _ _ _ _ K eq_refl) as [e ->].
  edestruct (choose_some kmeans silhouette) as [cs ->]. eexists. reflexivity.
Qed.
Lemma none data max_num : max_num <= 1 -> cluster data max_num None = Err KeyError.
Proof. intros L. unfold ClusterModel.cluster, apply_clustering. replace (max_num - 1) with 0 by lia. reflexivity. Qed.
Lemma exact_fails data max_num n e : cluster data max_num (Some n) = Err e <-> kmeans (transform random data) n = Err e.
Proof. unfold ClusterModel.cluster, apply_clustering. destruct (kmeans _ n) as [[lb c]|e']; cbn [bind]; split; intros H; congruence. Qed.

Lemma best data k (lab : nat -> list nat) (cen : nat -> list Q) (s : nat -> Q) :
  (forall n, 1 <= n < S (S k) -> kmeans (transform random data) n = Ok (lab n, cen n)) ->
  (exists e, silhouette (transform random data) (lab 1) = Err e) ->
  (forall n, 2 <= n < S (S k) -> silhouette (transform random data) (lab n) = Ok (s n)) ->
  exists n, 1 <= n < S (S k) /\ cluster data (S (S k)) None = Ok (unique (map round_half_even (cen n ++ [0%Q]))) /\
    (n = 1 -> forall m, 2 <= m < S (S k) -> (s m <= - (1))%Q) /\
    (2 <= n -> (- (1) < s n)%Q /\ forall m, 2 <= m < S (S k) -> (s m <= s n)%Q /\ (m < n -> (s m < s n)%Q)).
Proof.
  intros HK [e H1] HS. unfold ClusterModel.cluster, apply_clustering. cbn [Nat.sub seq ClusterModel.choose]. rewrite (HK 1) by lia. rewrite H1.
  destruct (choose_best kmeans silhouette (transform random data) lab cen s k 2 (- (1))%Q 1 (fun m => if m =? 1 then cen 1 else [])) as [[E A]|(n & Hn & E & G & A)]; [lia|intros n Hn; split; [apply HK|apply HS]; lia| |].
  - exists 1. split; [lia|]. rewrite E. cbn [bind Nat.eqb]. split; [reflexivity|]. split; [intros _ m Hm; apply A; lia|lia].
  - exists n. split; [lia|]. rewrite E. cbn [bind]. split; [reflexivity|]. split; [lia|]. intros _. split; [exact G|]. intros m Hm. apply A. lia.
Qed.

(** With the default of 3, the clustering into two groups is always taken. *)
Lemma always_two data lab1 cen1 lab2 cen2 : 
  kmeans (transform random data) 1 = Ok (lab1, cen1) -> kmeans (transform random data) 2 = Ok (lab2, cen2) ->
  (exists e, silhouette (transform random data) lab1 = Err e) ->
  (forall s, silhouette (transform random data) lab2 = Ok s -> (- (1) < s)%Q) ->
  cluster data 3 None = Ok (unique (map round_half_even (cen2 ++ [0%Q]))).
Proof.
  intros K1 K2 [e S1] S2. unfold ClusterModel.cluster, apply_clustering. cbn [Nat.sub seq ClusterModel.choose]. rewrite K1, S1, K2. destruct (silhouette (transform random data) lab2) as [s|] eqn:E; [|reflexivity].
  specialize (S2 s eq_refl). destruct (Qle_bool s (- (1))) eqn:L; [|reflexivity]. apply Qle_bool_iff in L. exfalso. apply (Qlt_not_le _ _ S2 L).
Qed.
End Results.
