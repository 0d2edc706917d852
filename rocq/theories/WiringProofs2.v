(** Further proofs about the wiring of meters. *)
From Coq Require Import Lia.
From Verif Require Import Base WiringModel WiringSpec WiringProofs.
Open Scope nat_scope.

Lemma upstream_unwired : forall reg m, w_site m = false -> (w_submeter_of m = None \/ exists k, w_submeter_of m = Some k /\ (k < 0)%Z) ->
  upstream reg m = Err ValueError.
Proof.
  intros reg m S [H|(k & H & L)]; unfold upstream; rewrite S, H; [reflexivity|]. apply Z.ltb_lt in L. rewrite L. reflexivity.
Qed.

Lemma upstream_elsewhere : forall reg m k b, w_site m = false -> w_submeter_of m = Some (Z.of_nat k) -> w_upstream_building m = Some b -> b <> i_building (w_id m) ->
  upstream reg m = Err GenericException.
Proof.
  intros reg m k b S K B N. unfold upstream. rewrite S, K, B. destruct (Z.ltb_spec (Z.of_nat k) 0) as [L|_]; [lia|].
  apply Nat.eqb_neq in N. rewrite N. reflexivity.
Qed.

(** What is registered: the first object of each identifier. *)
Lemma existsb_same m reg : existsb (same_meter m) reg = true <-> In (w_id m) (map w_id reg).
Proof.
  rewrite existsb_exists, in_map_iff. split; intros (x & H1 & H2).
  - exists x. apply same_meter_eq in H2. auto.
  - exists x. split; [exact H2|]. apply same_meter_eq. auto.
Qed.
Lemma register_inv ms : forall reg, NoDup (map w_id reg) -> NoDup (map w_id (fold_left register ms reg)) /\
  (forall m, In m (fold_left register ms reg) <-> In m reg \/ exists l r, ms = l ++ m :: r /\ ~ In (w_id m) (map w_id (reg ++ l))).
Proof.
  induction ms as [|a ms IH]; intros reg N; cbn [fold_left].
  - split; [exact N|]. intros m. split; [auto|]. intros [H|(l & r & E & _)]; [exact H|destruct l; discriminate].
  - assert (N' : NoDup (map w_id (register reg a))).
    { unfold register. destruct (existsb (same_meter a) reg) eqn:X; [exact N|]. rewrite map_app. cbn.
      apply NoDup_Add with (a := w_id a) (l := map w_id reg); [|split; [exact N|]].
      - rewrite <- (app_nil_r (map w_id reg)) at 1. apply Add_app.
      - intros I. apply existsb_same in I. congruence. }
    destruct (IH (register reg a) N') as [I1 I2]. split; [exact I1|]. intros m. rewrite I2. unfold register. destruct (existsb (same_meter a) reg) eqn:X.
    + split.
      * intros [H|(l & r & E & H)]; [auto|]. right. exists (a :: l), r. split; [rewrite E; reflexivity|]. rewrite map_app in *. cbn [map]. intros Y. apply H. apply in_app_or in Y. apply in_or_app.
        destruct Y as [Y|[Y|Y]]; [auto| |auto]. left. rewrite <- Y. apply existsb_same. exact X.
      * intros [H|(l & r & E & H)]; [auto|]. destruct l as [|b l]; cbn in E; injection E as -> E.
        -- rewrite app_nil_r in H. apply existsb_same in X. contradiction.
        -- right. exists l, r. split; [exact E|]. intros Y. apply H. rewrite map_app in *. cbn [map]. apply in_app_or in Y. apply in_or_app. cbn. tauto.
    + split.
      * intros [H|(l & r & E & H)].
        -- apply in_app_or in H. destruct H as [H|[<-|[]]]; [auto|]. right. exists [], ms. split; [reflexivity|]. rewrite app_nil_r. intros Y. apply existsb_same in Y. congruence.
        -- right. exists (a :: l), r. split; [rewrite E; reflexivity|]. rewrite <- app_assoc in H. exact H.
      * intros [H|(l & r & E & H)]; [left; apply in_or_app; auto|]. destruct l as [|b l]; cbn in E; injection E as -> E.
        -- left. apply in_or_app. right. left. reflexivity.
        -- right. exists l, r. split; [exact E|]. rewrite <- app_assoc. exact H.
Qed.

Lemma registered_thm : forall created, NoDup (map w_id (register_all created)) /\
  forall m, In m (register_all created) <-> exists before after, created = before ++ m :: after /\ ~ In (w_id m) (map w_id before).
Proof.
  intros created. unfold register_all. destruct (register_inv created [] (NoDup_nil _)) as [H1 H2]. split; [exact H1|]. intros m. rewrite H2. cbn. split; [intros [[]|H]; exact H|auto].
Qed.

(** Two tops. *)
Lemma filter_two {A} (f : A -> bool) l i j a b : i <> j -> nth_error l i = Some a -> nth_error l j = Some b -> f a = true -> f b = true -> 2 <= length (filter f l).
Proof.
  revert i j a b. induction l as [|x l IH]; intros i j a b D Ha Hb Fa Fb; [destruct i; discriminate|].
  assert (One : forall k c, nth_error l k = Some c -> f c = true -> 1 <= length (filter f l)).
  { intros k c Hc Fc. apply nth_error_In in Hc. assert (I : In c (filter f l)) by (apply filter_In; auto). destruct (filter f l); [destruct I|cbn; lia]. }
  cbn [filter]. destruct i as [|i], j as [|j]; cbn in Ha, Hb.
  - contradiction.
  - injection Ha as ->. rewrite Fa. cbn. specialize (One j b Hb Fb). lia.
  - injection Hb as ->. rewrite Fb. cbn. specialize (One i a Ha Fa). lia.
  - specialize (IH i j a b ltac:(lia) Ha Hb Fa Fb). destruct (f x); cbn; lia.
Qed.

Lemma two_tops_thm : forall reg ms top top', NoDup (map w_id (meters_in ms)) ->
  (forall m, In m (meters_in ms) -> exists u, upstream reg m = Ok u) -> ~ equal_nodes top top' ->
  (forall t, t = top \/ t = top' -> (exists m n, In m (meters_in ms) /\ hangs reg m n /\ equal_nodes t n) /\
     forall m n, In m (meters_in ms) -> hangs reg m n -> ~ equal_nodes t (WMeter m)) ->
  downstream_of_mains reg ms = Err RuntimeError.
Proof.
  intros reg ms top top' N O D H. destruct (outcomes_list reg _ O) as (us & F).
  destruct (wire_fold reg (flat_map leaves ms) us _ _ F inv_empty N) as (g & E & [Ed Nd En Di]). cbn [app] in *.
  unfold downstream_of_mains, wiring_graph. rewrite E. cbn [bind].
  set (f := fun n => negb (existsb (fun e => same_node n (snd e)) (g_edges g))).
  assert (X : forall t, t = top \/ t = top' -> exists i r, nth_error (g_nodes g) i = Some r /\ same_node t r = true /\ f r = true).
  { intros t Ht. destruct (H t Ht) as [(m & n & I & Hn & En') Hu]. pose proof (proj2 (pairs_hangs reg _ _ F m n) (conj I Hn)) as Ip.
    destruct (edge_in' _ _ _ Ed Ip) as (e & Ie & E1 & E2). cbn [fst snd] in E1, E2. destruct (En e Ie) as [X _]. apply existsb_exists in X. destruct X as (r & Ir & Sr).
    apply same_node_eq in En'. assert (S : same_node t r = true).
    { rewrite same_sym in E2. rewrite (same_cong t n _ En'), (same_cong n (fst e) _ E2). exact Sr. }
    apply In_nth_error in Ir. destruct Ir as [i Ei]. exists i, r. split; [exact Ei|]. split; [exact S|]. unfold f. apply negb_true_iff.
    destruct (existsb _ (g_edges g)) eqn:X; [|reflexivity]. apply existsb_exists in X. destruct X as (e' & Ie' & S').
    destruct (edge_in _ _ _ Ed Ie') as ([m' n'] & Ip' & E1' & _). cbn [fst] in E1'. apply (pairs_hangs reg _ _ F) in Ip'. destruct Ip' as [Im' Hm'].
    destruct (Hu m' n' Im' Hm'). apply same_node_eq. rewrite <- E1'. rewrite (same_cong t r _ S). exact S'. }
  destruct (X top (or_introl eq_refl)) as (i & r & Hi & Si & Fi). destruct (X top' (or_intror eq_refl)) as (j & r' & Hj & Sj & Fj).
  assert (T : tree_root g = Err RuntimeError).
  { unfold tree_root. change (fun n => negb (existsb (fun e => same_node n (snd e)) (g_edges g))) with f.
    assert (L : 2 <= length (filter f (g_nodes g))).
    { apply (filter_two f _ i j r r'); auto. intros ->. rewrite Hi in Hj. injection Hj as <-. apply D. apply same_node_eq. rewrite same_sym in Sj. exact (same_trans _ _ _ Si Sj). }
    destruct (filter f (g_nodes g)) as [|a [|b l]]; cbn in L; try lia. reflexivity. }
  rewrite T. reflexivity.
Qed.
