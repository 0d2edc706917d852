From Verif Require Import Base SteadyModel SteadySpec SteadyProofs.
From Coq Require Import QArith Qabs Lqa Sorted.
Open Scope nat_scope.

Lemma selected_sub {A} (P : A -> Prop) l out : selected P l out -> forall x, In x out -> In x l /\ P x.
Proof.
  induction 1 as [|y l out Hy HS IH|y l out Hy HS IH]; intros x; cbn; [tauto| |].
  - intros [<-|H]; [auto|]. destruct (IH x H). auto.
  - intros H. destruct (IH x H). auto.
Qed.
Lemma selected_sorted {A} (P : A -> Prop) (R : A -> A -> Prop) l out : selected P l out -> StronglySorted R l -> StronglySorted R out.
Proof.
  induction 1 as [|y l out Hy HS IH|y l out Hy HS IH]; intros HR; [constructor| |].
  - apply StronglySorted_inv in HR. destruct HR as [H1 H2]. constructor; [auto|]. rewrite Forall_forall in *. intros x Hx. apply H2. apply (selected_sub _ _ _ HS). exact Hx.
  - apply StronglySorted_inv in HR. destruct HR as [H1 H2]. auto.
Qed.
Lemma sorted_map {A B} (f : A -> B) (R : B -> B -> Prop) l : StronglySorted R (map f l) <-> StronglySorted (fun x y => R (f x) (f y)) l.
Proof.
  induction l as [|x l IH]; cbn; [split; constructor|]. split; intros H; apply StronglySorted_inv in H; destruct H as [H H1]; constructor; try tauto.
  - rewrite Forall_map in H1. exact H1.
  - apply Forall_map. exact H1.
Qed.

Lemma changes_times before l : map (fun x => fst (fst x)) (changes before l) = map fst l.
Proof. revert before. induction l as [|[t v] l IH]; intros b; cbn; [reflexivity|]. rewrite IH. reflexivity. Qed.
Lemma combine_fst {A B} (a : list A) (b : list B) : length a = length b -> map fst (combine a b) = a.
Proof. revert b. induction a as [|u a IH]; intros [|w b] H; cbn in *; try lia; [reflexivity|]. rewrite IH by lia. reflexivity. Qed.

Lemma sorted_app {A} (R : A -> A -> Prop) a b : StronglySorted R (a ++ b) -> StronglySorted R b /\ forall x y, In x a -> In y b -> R x y.
Proof.
  induction a as [|u a IH]; cbn; intros H; [split; [exact H|tauto]|]. inversion_clear H. destruct (IH H0) as [H2 H3]. split; [exact H2|]. intros x y [<-|Hx] Hy; [|auto].
  rewrite Forall_forall in H1. apply H1. apply in_or_app. auto.
Qed.

Lemma starts_sub l : Forall (fun s => readings s <> []) l -> forall t, In t (map start_of l) -> In t (map fst (flat_map readings l)).
Proof.
  induction 1 as [|s l Hs HF IH]; intros t; cbn; [tauto|]. rewrite map_app, in_app_iff. intros [<-|H]; [|auto]. left. unfold start_of. destruct (readings s); [contradiction|]. left. reflexivity.
Qed.
Lemma starts_sorted l : Forall (fun s => readings s <> []) l -> StronglySorted Z.lt (map fst (flat_map readings l)) -> StronglySorted Z.lt (map start_of l).
Proof.
  induction 1 as [|s l Hs HF IH]; intros H; cbn in *; [constructor|]. rewrite map_app in H. apply sorted_app in H. destruct H as [H1 H2]. constructor; [apply IH; exact H1|].
  apply Forall_forall. intros t Ht. apply H2; [|apply starts_sub; assumption]. unfold start_of. destruct (readings s); [contradiction|]. left. reflexivity.
Qed.

Lemma report_thm cols threshold noise (rows : list row) steady trans : cols <= 2 -> (0 <= noise)%Q -> Forall (fun r : row => length (snd r) = cols) rows -> StronglySorted Z.lt (map fst rows) ->
  find_steady_states cols rows threshold noise = Ok (steady, trans) ->
  map fst steady = map fst trans /\ StronglySorted Z.lt (map fst trans) /\ Forall (fun t => In t (map fst rows)) (map fst trans) /\
  Forall (fun x => exceeds_abs noise (snd x)) trans.
Proof.
  intros H2 H0 HW HS E. destruct rows as [|r0 rows]; [discriminate|]. destruct (steady_thm cols threshold noise H2 H0 r0 rows HW) as (l & levels & sel & (S1 & S2 & S3) & SL & SS & SR).
  assert (HL : length (map start_of l) = length levels) by (rewrite map_length; eapply F2len; exact SL).
  assert (OUT : exists sel', (forall x, In x sel' -> In x sel) /\ (forall R, StronglySorted R sel -> StronglySorted R sel') /\ steady = map ps sel' /\ trans = map pt sel').
  { destruct sel as [|[[t d] lev] rest]; [cbv beta match in SR; rewrite SR in E; discriminate|]. destruct SR as [R1 R2].
    destruct (any_above noise lev && (t =? fst r0)%Z) eqn:B.
    - apply andb_true_iff in B. destruct B as [B1 B2]. apply any_above_spec in B1. apply Z.eqb_eq in B2. rewrite R1 in E by auto. injection E as <- <-. exists rest. split; [intros x Hx; right; exact Hx|]. split; [|auto]. intros R X. inversion_clear X. assumption.
    - rewrite R2 in E; [injection E as <- <-; exists ((t, d, lev) :: rest); auto|]. intros [B2 B1]. apply any_above_spec in B1. apply Z.eqb_eq in B2. rewrite B1, B2 in B. discriminate. }
  destruct OUT as (sel' & O1 & O2 & -> & ->).
  assert (TS : StronglySorted (fun x y => (fst (fst x) < fst (fst y))%Z) (changes (repeat 0%Q cols) (combine (map start_of l) levels))).
  { apply (sorted_map (fun x : Z * vec * vec => fst (fst x)) Z.lt). rewrite changes_times, combine_fst by exact HL. apply starts_sorted; [exact S2|rewrite S1; exact HS]. }
  split; [rewrite !map_map; reflexivity|]. split; [|split].
  - rewrite map_map. apply (sorted_map (fun x : Z * vec * vec => fst (pt x)) Z.lt). apply O2. eapply selected_sorted; [exact SS|exact TS].
  - rewrite map_map. apply Forall_forall. intros t Ht. apply in_map_iff in Ht. destruct Ht as (x & <- & Hx). apply O1 in Hx. apply (selected_sub _ _ _ SS) in Hx. destruct Hx as [Hx _].
    rewrite <- S1. apply starts_sub; [exact S2|]. rewrite <- (combine_fst (map start_of l) levels HL), <- (changes_times (repeat 0%Q cols)). apply in_map_iff. exists x. auto.
  - apply Forall_map. apply Forall_forall. intros x Hx. apply O1 in Hx. apply (selected_sub _ _ _ SS) in Hx. apply Hx.
Qed.

(** Several chunks. *)
Lemma per_chunk_thm cols th no chunks : forall parts, per_chunk cols chunks th no = Ok parts ->
  Forall2 (fun rows x => find_steady_states cols rows th no = Ok x) (usable chunks) parts.
Proof.
  induction chunks as [|c cs IH]; intros parts; cbn [per_chunk].
  - intros H. injection H as <-. constructor.
  - unfold usable. cbn [map filter]. fold (complete c). destruct (complete c) as [|r rows] eqn:E; cbn [negb].
    + exact (IH parts).
    + destruct (find_steady_states cols (r :: rows) th no) as [x|e] eqn:F; cbn [bind]; [|discriminate].
      destruct (per_chunk cols cs th no) as [xs|e]; cbn [bind]; [|discriminate]. intros H. injection H as <-. constructor; [exact F|]. apply IH. reflexivity.
Qed.
Lemma load_thm cols th no chunks steady trans : find_steady_states_transients cols chunks th no = Ok (steady, trans) ->
  exists parts, Forall2 (fun rows x => find_steady_states cols rows th no = Ok x) (usable chunks) parts /\
    steady = concat (map fst parts) /\ trans = concat (map snd parts) /\ parts <> [].
Proof.
  unfold find_steady_states_transients. destruct (per_chunk cols chunks th no) as [parts|e] eqn:E; cbn [bind]; [|discriminate].
  destruct parts as [|p parts]; [discriminate|]. intros H. apply (f_equal (fun r => match r with Ok x => x | Err _ => (steady, trans) end)) in H. cbn beta iota in H.
  apply pair_equal_spec in H. destruct H as [<- <-]. exists (p :: parts). split; [exact (per_chunk_thm _ _ _ _ _ E)|]. rewrite <- !flat_map_concat_map. split; [reflexivity|]. split; [reflexivity|discriminate].
Qed.
Lemma usable_concat chunks : concat (usable chunks) = concat (map complete chunks).
Proof. unfold usable. induction (map complete chunks) as [|[|r l] ls IH]; cbn; [reflexivity|exact IH|]. rewrite <- IH. reflexivity. Qed.
Lemma sorted_join (a b : list Z) : StronglySorted Z.lt a -> StronglySorted Z.lt b -> (forall x y, In x a -> In y b -> (x < y)%Z) -> StronglySorted Z.lt (a ++ b).
Proof.
  induction a as [|x a IH]; intros A B C; [exact B|]. inversion A; subst. cbn. constructor; [apply IH; [assumption|exact B|intros; apply C; [right; assumption|assumption]]|].
  apply Forall_app. split; [assumption|]. apply Forall_forall. intros y Y. apply C; [left; reflexivity|exact Y].
Qed.
Lemma load_report_thm cols th no chunks steady trans : cols <= 2 -> (0 <= no)%Q ->
  Forall (fun r : row => length (snd r) = cols) (concat (map complete chunks)) -> StronglySorted Z.lt (map fst (concat (map complete chunks))) ->
  find_steady_states_transients cols chunks th no = Ok (steady, trans) ->
  map fst steady = map fst trans /\ StronglySorted Z.lt (map fst trans) /\
  Forall (fun t => In t (map fst (concat (map complete chunks)))) (map fst trans) /\ Forall (fun x => exceeds_abs no (snd x)) trans.
Proof.
  intros HC HN. rewrite <- usable_concat. intros HL HS H. destruct (load_thm _ _ _ _ _ _ H) as (parts & F & -> & -> & _). clear H. revert HL HS.
  induction F as [|rows [s t] us ps H F IH]; cbn [map concat]; intros HL HS.
  - repeat split; constructor.
  - apply Forall_app in HL. destruct HL as [L1 L2]. rewrite map_app in HS. pose proof (sorted_app _ _ _ HS) as [S2 S12].
    assert (S1 : StronglySorted Z.lt (map fst rows)).
    { clear -HS. induction rows as [|r rows IH]; [constructor|]. cbn in HS. inversion HS; subst. constructor; [apply IH; assumption|]. apply Forall_app in H2. tauto. }
    destruct (report_thm cols th no rows s t HC HN L1 S1 H) as (A1 & A2 & A3 & A4). destruct (IH L2 S2) as (B1 & B2 & B3 & B4). cbn [fst snd]. rewrite !map_app.
    split; [rewrite A1, B1; reflexivity|]. split; [|split].
    + apply sorted_join; [exact A2|exact B2|]. intros x y X Y. rewrite Forall_forall in A3, B3. apply S12; auto.
    + apply Forall_app. split; (eapply Forall_impl; [|eassumption]); cbn; intros a X; apply in_or_app; auto.
    + apply Forall_app. auto.
Qed.
