(** Proofs about the wiring of meters. *)
From Coq Require Import Lia.
From Verif Require Import Base WiringModel WiringSpec.
Open Scope nat_scope.

Lemma mid_eqb_eq a b : mid_eqb a b = true <-> a = b.
Proof.
  unfold mid_eqb. rewrite !andb_true_iff, !Nat.eqb_eq. destruct a, b. cbn. split; [intros [[-> ->] ->]; reflexivity|].
  intros E. injection E as -> -> ->. auto.
Qed.
Lemma same_meter_eq a b : same_meter a b = true <-> w_id a = w_id b.
Proof. apply mid_eqb_eq. Qed.

Lemma register_fold : forall ms reg, NoDup (map w_id (reg ++ ms)) -> fold_left register ms reg = reg ++ ms.
Proof.
  induction ms as [|m ms IH]; intros reg N; [rewrite app_nil_r; reflexivity|]. cbn [fold_left].
  assert (E : register reg m = reg ++ [m]).
  { unfold register. destruct (existsb (same_meter m) reg) eqn:X; [|reflexivity]. apply existsb_exists in X. destruct X as (x & I & S).
    apply same_meter_eq in S. rewrite map_app in N. apply NoDup_remove_2 in N. destruct N. apply in_or_app. left. rewrite S. apply in_map, I. }
  rewrite E, IH, <- app_assoc; [reflexivity|]. rewrite <- app_assoc. exact N.
Qed.
Lemma register_once created : created_once created -> register_all created = created.
Proof. intros N. exact (register_fold created [] N). Qed.

Lemma upstream_below reg m k : below m k -> upstream reg m = global_item reg (mkMid k (i_building (w_id m)) (i_dataset (w_id m))).
Proof.
  intros (S & K & B). unfold upstream. rewrite S, K. destruct (Z.ltb_spec (Z.of_nat k) 0) as [L|_]; [lia|]. rewrite Nat2Z.id.
  destruct B as [-> | ->]; [reflexivity|]. rewrite Nat.eqb_refl. reflexivity.
Qed.

Lemma find_id id reg m : NoDup (map w_id reg) -> In m reg -> w_id m = id -> find (fun x => mid_eqb (w_id x) id) reg = Some m.
Proof.
  induction reg as [|x reg IH]; intros N I E; [destruct I|]. cbn in *. inversion N as [|? ? N1 N2]; subst.
  destruct (mid_eqb (w_id x) (w_id m)) eqn:X.
  - apply mid_eqb_eq in X. destruct I as [->|I]; [reflexivity|]. destruct N1. rewrite X. apply in_map, I.
  - destruct I as [->|I]; [|apply IH; auto]. assert (mid_eqb (w_id m) (w_id m) = true) by (apply mid_eqb_eq; reflexivity). congruence.
Qed.

Lemma upstream_found : forall created m k u, created_once created -> below m (S k) -> In u created ->
  same_building u m -> i_instance (w_id u) = S k -> upstream (register_all created) m = Ok (Some (WMeter u)).
Proof.
  intros created m k u N B I [B1 B2] K. rewrite (register_once _ N), (upstream_below _ _ _ B). unfold global_item. cbn [i_instance Nat.eqb].
  rewrite (find_id _ _ u N I); [reflexivity|]. destruct (w_id u). cbn in *. subst. reflexivity.
Qed.
Lemma upstream_missing : forall created m k, created_once created -> below m (S k) ->
  (forall u, In u created -> same_building u m -> i_instance (w_id u) <> S k) -> upstream (register_all created) m = Err KeyError.
Proof.
  intros created m k N B H. rewrite (register_once _ N), (upstream_below _ _ _ B). unfold global_item. cbn [i_instance Nat.eqb].
  destruct (find _ created) as [u|] eqn:F; [|reflexivity]. apply find_some in F. destruct F as [I E]. apply mid_eqb_eq in E.
  destruct (H u I); [split; rewrite E; reflexivity|rewrite E; reflexivity].
Qed.
Lemma filter_filter {A} (f g : A -> bool) l : filter g (filter f l) = filter (fun x => f x && g x) l.
Proof. induction l as [|x l IH]; [reflexivity|]. cbn. destruct (f x); cbn; [destruct (g x); rewrite IH; reflexivity|exact IH]. Qed.
Lemma upstream_mains : forall created m l, created_once created -> below m 0 -> In m created -> site_meters created m l ->
  upstream (register_all created) m = Ok (match l with [] => None | [x] => Some (WMeter x) | _ => Some (WGroup l) end).
Proof.
  intros created m l N B I (sel & S & ->). rewrite (register_once _ N), (upstream_below _ _ _ B). unfold global_item. cbn [i_instance Nat.eqb].
  unfold building_mains. cbn [i_building i_dataset].
  set (f := fun m0 => (i_building (w_id m0) =? i_building (w_id m)) && (i_dataset (w_id m0) =? i_dataset (w_id m))).
  assert (E : filter w_site (filter f created) = filter sel created).
  { rewrite filter_filter. apply filter_ext. intros x. apply eq_iff_eq_true. rewrite S. unfold f, same_building.
    rewrite !andb_true_iff, !Nat.eqb_eq. tauto. }
  destruct (filter f created) as [|y l'] eqn:F.
  - assert (X : In m (filter f created)) by (apply filter_In; split; [exact I|unfold f; rewrite !Nat.eqb_refl; reflexivity]). rewrite F in X. destruct X.
  - unfold mains_of. rewrite E. destruct (filter sel created) as [|a [|b r]]; reflexivity.
Qed.

(** ** The graph *)
Definition wnode_equiv (a b : wnode) : Prop := same_node a b = true.
Lemma subset_spec a b : subset a b = true <-> forall x, In x (map w_id a) -> In x (map w_id b).
Proof.
  unfold subset. rewrite forallb_forall. split.
  - intros H x I. apply in_map_iff in I. destruct I as (y & <- & I). specialize (H y I). apply existsb_exists in H. destruct H as (z & Iz & S).
    apply same_meter_eq in S. rewrite S. apply in_map, Iz.
  - intros H x I. specialize (H _ (in_map w_id _ _ I)). apply in_map_iff in H. destruct H as (y & E & Iy). apply existsb_exists. exists y.
    split; [exact Iy|]. apply same_meter_eq. symmetry. exact E.
Qed.
Lemma same_refl a : same_node a a = true.
Proof. destruct a; cbn; [apply same_meter_eq; reflexivity|]. apply andb_true_iff. split; apply subset_spec; auto. Qed.
Lemma same_sym a b : same_node a b = same_node b a.
Proof.
  apply eq_iff_eq_true. destruct a as [a|a], b as [b|b]; cbn; try reflexivity.
  - rewrite !same_meter_eq. split; auto.
  - rewrite !andb_true_iff. tauto.
Qed.
Lemma same_trans a b c : same_node a b = true -> same_node b c = true -> same_node a c = true.
Proof.
  destruct a as [a|a], b as [b|b], c as [c|c]; cbn; try discriminate.
  - rewrite !same_meter_eq. congruence.
  - rewrite !andb_true_iff, !subset_spec. intros [A B] [C D]. split; auto.
Qed.
Lemma same_cong a b c : same_node a b = true -> same_node a c = same_node b c.
Proof.
  intros E. apply eq_iff_eq_true. split; intros H; [|exact (same_trans _ _ _ E H)].
  rewrite same_sym in E. exact (same_trans _ _ _ E H).
Qed.

Lemma existing_same g n : same_node (existing g n) n = true.
Proof. unfold existing. destruct (find (same_node n) (g_nodes g)) as [n'|] eqn:F; [|apply same_refl]. apply find_some in F. rewrite same_sym. tauto. Qed.

Lemma in_add_node x n l : In x (add_node n l) -> x = n \/ In x l.
Proof. unfold add_node. destruct (existsb (same_node n) l); [auto|]. rewrite in_app_iff. cbn. intuition. Qed.
Lemma add_node_has n l : existsb (same_node n) (add_node n l) = true.
Proof. unfold add_node. destruct (existsb (same_node n) l) eqn:E; [exact E|]. rewrite existsb_app. cbn. rewrite same_refl, orb_true_r. reflexivity. Qed.
Lemma add_node_mono x n l : existsb (same_node x) l = true -> existsb (same_node x) (add_node n l) = true.
Proof. unfold add_node. destruct (existsb (same_node n) l); [auto|]. rewrite existsb_app. intros ->. reflexivity. Qed.

(** At most one of each node, up to equality. *)
Definition distinct_nodes (l : list wnode) : Prop := forall i j a b, nth_error l i = Some a -> nth_error l j = Some b -> same_node a b = true -> i = j.
Lemma add_node_distinct n l : distinct_nodes l -> distinct_nodes (add_node n l).
Proof.
  intros D. unfold add_node. destruct (existsb (same_node n) l) eqn:E; [exact D|].
  assert (X : forall x, In x l -> same_node n x = false).
  { intros x I. destruct (same_node n x) eqn:S; [|reflexivity]. assert (existsb (same_node n) l = true) by (apply existsb_exists; exists x; auto). congruence. }
  assert (C : forall k a, nth_error (l ++ [n]) k = Some a -> (k < length l /\ nth_error l k = Some a) \/ (k = length l /\ a = n)).
  { intros k a H. destruct (Nat.lt_ge_cases k (length l)) as [L|L].
    - left. rewrite nth_error_app1 in H by exact L. auto.
    - right. rewrite nth_error_app2 in H by exact L. destruct (k - length l) as [|d] eqn:Ek; [|destruct d; discriminate]. cbn in H. injection H as <-. split; [lia|reflexivity]. }
  intros i j a b Ha Hb S. destruct (C i a Ha) as [[La Ea]|[-> ->]], (C j b Hb) as [[Lb Eb]|[-> ->]].
  - exact (D i j a b Ea Eb S).
  - rewrite same_sym in S. rewrite (X a (nth_error_In _ _ Ea)) in S. discriminate.
  - rewrite (X b (nth_error_In _ _ Eb)) in S. discriminate.
  - reflexivity.
Qed.

(** Invariant of the construction. *)
Record inv (g : graph) (pairs : list (wmeter * wnode)) : Prop := mkInv {
  inv_edges : Forall2 (fun e mu => snd e = WMeter (fst mu) /\ same_node (fst e) (snd mu) = true) (g_edges g) pairs;
  inv_nodes : forall n, In n (g_nodes g) -> exists e, In e (g_edges g) /\ (same_node n (fst e) = true \/ same_node n (snd e) = true);
  inv_ends : forall e, In e (g_edges g) -> existsb (same_node (fst e)) (g_nodes g) = true /\ existsb (same_node (snd e)) (g_nodes g) = true;
  inv_distinct : distinct_nodes (g_nodes g) }.

Lemma inv_add g pairs m n : inv g pairs -> ~ In (w_id m) (map (fun p => w_id (fst p)) pairs) ->
  inv (add_edge g (existing g n) (WMeter m)) (pairs ++ [(m, n)]).
Proof.
  intros [E N En D] F. set (u := existing g n).
  assert (X : existsb (fun e => same_node u (fst e) && same_node (WMeter m) (snd e)) (g_edges g) = false).
  { destruct (existsb _ (g_edges g)) eqn:X; [|reflexivity]. apply existsb_exists in X. destruct X as (e & Ie & S). apply andb_true_iff in S. destruct S as [_ S].
    destruct F. clear - E Ie S. induction E as [|e' [m' n'] es ps [H1 H2] E IH]; [destruct Ie|]. cbn [map fst snd] in *. destruct Ie as [->|Ie].
    - rewrite H1 in S. cbn in S. apply same_meter_eq in S. left. symmetry. exact S.
    - right. apply IH, Ie. }
  unfold add_edge. rewrite X. constructor; cbn [g_nodes g_edges].
  - apply Forall2_app; [exact E|]. constructor; [|constructor]. cbn. split; [reflexivity|]. apply existing_same.
  - intros x I. apply in_add_node in I. destruct I as [->|I].
    + exists (u, WMeter m). split; [apply in_or_app; right; left; reflexivity|]. right. apply same_refl.
    + apply in_add_node in I. destruct I as [->|I].
      * exists (u, WMeter m). split; [apply in_or_app; right; left; reflexivity|]. left. apply same_refl.
      * destruct (N x I) as (e & Ie & H). exists e. split; [apply in_or_app; left; exact Ie|exact H].
  - intros e I. apply in_app_or in I. destruct I as [I|[<-|[]]].
    + destruct (En e I). split; apply add_node_mono, add_node_mono; assumption.
    + cbn [fst snd]. split; [apply add_node_mono, add_node_has|apply add_node_has].
  - apply add_node_distinct, add_node_distinct, D.
Qed.

Definition pairs_of (ms : list wmeter) (us : list (option wnode)) : list (wmeter * wnode) :=
  flat_map (fun mu => match snd mu with Some n => [(fst mu, n)] | None => [] end) (combine ms us).
Lemma pairs_in ms us m n : In (m, n) (pairs_of ms us) -> In m ms.
Proof.
  unfold pairs_of. intros I. apply in_flat_map in I. destruct I as ([m' u] & Ic & I). cbn [fst snd] in I. destruct u; [|destruct I].
  destruct I as [I|[]]. injection I as -> _. exact (in_combine_l _ _ _ _ Ic).
Qed.

Lemma wire_fold reg : forall ms us g pairs, Forall2 (fun m u => upstream reg m = Ok u) ms us -> inv g pairs ->
  NoDup (map (fun p => w_id (fst p)) pairs ++ map w_id ms) ->
  exists g', foldM (wire reg) ms g = Ok g' /\ inv g' (pairs ++ pairs_of ms us).
Proof.
  induction ms as [|m ms IH]; intros us g pairs F I N; inversion F as [|? u ? us' U F']; subst.
  - exists g. split; [reflexivity|]. unfold pairs_of. cbn. rewrite app_nil_r. exact I.
  - cbn [foldM]. unfold wire at 1. rewrite U. cbn [bind]. cbn [map] in N. destruct u as [n|].
    + assert (NI : ~ In (w_id m) (map (fun p => w_id (fst p)) pairs)).
      { apply NoDup_remove_2 in N. intros X. apply N, in_or_app. left. exact X. }
      destruct (IH us' (add_edge g (existing g n) (WMeter m)) (pairs ++ [(m, n)]) F' (inv_add _ _ _ _ I NI)) as (g' & E & I').
      { rewrite map_app, <- app_assoc. exact N. }
      exists g'. split; [exact E|]. rewrite <- app_assoc in I'. exact I'.
    + destruct (IH us' g pairs F' I (NoDup_remove_1 _ _ _ N)) as (g' & E & I'). exists g'. split; [exact E|]. exact I'.
Qed.

Lemma inv_empty : inv (mkGraph [] []) [].
Proof. constructor; cbn; [constructor|intros n []|intros e []|]. intros i j a b H. destruct i; discriminate. Qed.

(** ** The root *)
Lemma edge_in {P} (es : list (wnode * wnode)) pairs e : Forall2 P es pairs -> In e es -> exists p : wmeter * wnode, In p pairs /\ P e p.
Proof. intros F. induction F as [|x y l l' H F IH]; intros I; [destruct I|]. destruct I as [->|I]; [exists y; split; [left; reflexivity|exact H]|]. destruct (IH I) as (p & Ip & Hp). exists p. split; [right; exact Ip|exact Hp]. Qed.
Lemma edge_in' {P} (es : list (wnode * wnode)) pairs (p : wmeter * wnode) : Forall2 P es pairs -> In p pairs -> exists e, In e es /\ P e p.
Proof. intros F. induction F as [|x y l l' H F IH]; intros I; [destruct I|]. destruct I as [->|I]; [exists x; split; [left; reflexivity|exact H]|]. destruct (IH I) as (q & Iq & Hq). exists q. split; [right; exact Iq|exact Hq]. Qed.

Lemma filter_single {A} (f : A -> bool) : forall l x, (forall i j a b, nth_error l i = Some a -> nth_error l j = Some b -> f a = true -> f b = true -> i = j) ->
  In x l -> f x = true -> filter f l = [x].
Proof.
  induction l as [|y l IH]; intros x U I F; [destruct I|]. cbn [filter]. destruct I as [->|I].
  - rewrite F. f_equal. destruct (filter f l) as [|z r] eqn:E; [reflexivity|].
    assert (Iz : In z (filter f l)) by (rewrite E; left; reflexivity). apply filter_In in Iz. destruct Iz as [Iz Fz].
    apply In_nth_error in Iz. destruct Iz as [k Ek]. specialize (U 0 (S k) x z eq_refl Ek F Fz). discriminate.
  - destruct (f y) eqn:Fy.
    + apply In_nth_error in I. destruct I as [k Ek]. specialize (U 0 (S k) y x eq_refl Ek Fy F). discriminate.
    + apply IH; auto. intros i j a b Ha Hb Fa Fb. specialize (U (S i) (S j) a b Ha Hb Fa Fb). lia.
Qed.

Lemma successors_pairs : forall es pairs r,
  Forall2 (fun e mu => snd e = WMeter (fst mu) /\ same_node (fst e) (snd mu) = true) es pairs ->
  map snd (filter (fun e => same_node r (fst e)) es) = map (fun p => WMeter (fst p)) (filter (fun p => same_node r (snd p)) pairs).
Proof.
  intros es pairs r F. induction F as [|e [m n] es pairs [H1 H2] F IH]; [reflexivity|]. cbn [filter fst snd] in *.
  assert (X : same_node r (fst e) = same_node r n) by (rewrite (same_sym r), (same_sym r); apply same_cong, H2).
  rewrite X. destruct (same_node r n); [cbn [map fst snd]; rewrite H1, IH; reflexivity|exact IH].
Qed.

Lemma downstream : forall reg ms us M,
  NoDup (map w_id (flat_map leaves ms)) ->
  Forall2 (fun m u => upstream reg m = Ok u) (flat_map leaves ms) us ->
  (exists m n, In (m, n) (pairs_of (flat_map leaves ms) us) /\ same_node M n = true) ->
  (forall m n, In (m, n) (pairs_of (flat_map leaves ms) us) -> same_node M (WMeter m) = false) ->
  (forall m n, In (m, n) (pairs_of (flat_map leaves ms) us) -> same_node M n = true \/ exists m' n', In (m', n') (pairs_of (flat_map leaves ms) us) /\ same_node n (WMeter m') = true) ->
  downstream_of_mains reg ms = Ok (map (fun p => WMeter (fst p)) (filter (fun p => same_node M (snd p)) (pairs_of (flat_map leaves ms) us))).
Proof.
  intros reg ms us M N F (m0 & n0 & I0 & S0) H1 H2.
  destruct (wire_fold reg (flat_map leaves ms) us _ _ F inv_empty N) as (g & E & [Ed Nd En Di]). cbn [app] in *.
  unfold downstream_of_mains, wiring_graph. rewrite E. cbn [bind].
  set (pairs := pairs_of (flat_map leaves ms) us) in *.
  (* nodes that are not an end of an edge are M *)
  set (f := fun n => negb (existsb (fun e => same_node n (snd e)) (g_edges g))).
  assert (R : forall n, In n (g_nodes g) -> f n = true -> same_node M n = true).
  { intros n I Fn. destruct (Nd n I) as (e & Ie & [S|S]).
    - destruct (edge_in _ _ _ Ed Ie) as ([m u] & Ip & E1 & E2). cbn [fst snd] in *. destruct (H2 m u Ip) as [S'|(m' & n' & Ip' & S')].
      + rewrite same_sym, (same_cong n (fst e)), (same_cong (fst e) u), same_sym by assumption. exact S'.
      + unfold f in Fn. apply negb_true_iff in Fn. destruct (edge_in' _ _ _ Ed Ip') as (e' & Ie' & E1' & _). cbn [fst] in E1'.
        assert (X : existsb (fun e => same_node n (snd e)) (g_edges g) = true).
        { apply existsb_exists. exists e'. split; [exact Ie'|]. rewrite E1'. rewrite (same_cong n (fst e)), (same_cong (fst e) u) by assumption. exact S'. }
        congruence.
    - unfold f in Fn. apply negb_true_iff in Fn. assert (X : existsb (fun e => same_node n (snd e)) (g_edges g) = true) by (apply existsb_exists; exists e; auto). congruence. }
  assert (RM : forall n, same_node M n = true -> f n = true).
  { intros n S. unfold f. apply negb_true_iff. destruct (existsb _ (g_edges g)) eqn:X; [|reflexivity]. apply existsb_exists in X. destruct X as (e & Ie & Se).
    destruct (edge_in _ _ _ Ed Ie) as ([m u] & Ip & E1 & _). cbn [fst] in E1. rewrite E1 in Se. rewrite <- (same_cong M n _ S), (H1 m u Ip) in Se. discriminate. }
  destruct (edge_in' _ _ _ Ed I0) as (e0 & Ie0 & E1 & E2). cbn [fst snd] in E1, E2.
  destruct (En e0 Ie0) as [X0 _]. apply existsb_exists in X0. destruct X0 as (r & Ir & Sr).
  assert (SM : same_node M r = true).
  { rewrite same_sym in E2. rewrite (same_cong M n0 _ S0), (same_cong n0 (fst e0) _ E2). exact Sr. }
  assert (T : tree_root g = Ok r).
  { unfold tree_root. change (fun n => negb (existsb (fun e => same_node n (snd e)) (g_edges g))) with f.
    rewrite (filter_single f (g_nodes g) r); [reflexivity| |exact Ir|exact (RM r SM)].
    intros i j a b Ha Hb Fa Fb. apply (Di i j a b Ha Hb). pose proof (R a (nth_error_In _ _ Ha) Fa) as Sa. pose proof (R b (nth_error_In _ _ Hb) Fb) as Sb.
    rewrite <- (same_cong M a b Sa). exact Sb. }
  rewrite T. cbn [bind]. unfold successors. f_equal. rewrite (successors_pairs _ pairs r Ed). f_equal. apply filter_ext. intros p. symmetry. apply same_cong, SM.
Qed.

Lemma same_node_eq a b : same_node a b = true <-> equal_nodes a b.
Proof.
  destruct a as [a|a], b as [b|b]; cbn; try (split; [discriminate|intros []]).
  - apply same_meter_eq.
  - rewrite andb_true_iff, !subset_spec. split; [intros [A B] i; split; auto|intros H; split; intros i; apply H].
Qed.
Lemma pairs_hangs reg : forall ms us, Forall2 (fun m u => upstream reg m = Ok u) ms us ->
  forall m n, In (m, n) (pairs_of ms us) <-> In m ms /\ hangs reg m n.
Proof.
  intros ms us F. induction F as [|m u ms us U F IH]; intros m' n; [split; [intros []|intros [[] _]]|].
  unfold pairs_of. cbn [combine flat_map fst snd]. fold (pairs_of ms us). rewrite in_app_iff, IH. unfold hangs. split.
  - intros [I|[I H]]; [|split; [right; exact I|exact H]]. destruct u as [n'|]; [|destruct I]. destruct I as [E|[]]. injection E as <- <-. split; [left; reflexivity|exact U].
  - intros [[->|I] H]; [|right; auto]. left. rewrite U in H. injection H as ->. left. reflexivity.
Qed.
Lemma outcomes_list reg : forall ms, (forall m, In m ms -> exists u, upstream reg m = Ok u) -> exists us, Forall2 (fun m u => upstream reg m = Ok u) ms us.
Proof.
  induction ms as [|m ms IH]; intros H; [exists []; constructor|]. destruct (H m (or_introl eq_refl)) as (u & U).
  destruct IH as (us & F); [intros x I; apply H; right; exact I|]. exists (u :: us). constructor; assumption.
Qed.
Lemma pairs_filter reg M : forall ms us, Forall2 (fun m u => upstream reg m = Ok u) ms us ->
  map (fun p => WMeter (fst p)) (filter (fun p => same_node M (snd p)) (pairs_of ms us)) =
  map WMeter (filter (fun m => match upstream reg m with Ok (Some n) => same_node M n | _ => false end) ms).
Proof.
  intros ms us F. induction F as [|m u ms us U F IH]; [reflexivity|]. unfold pairs_of. cbn [combine flat_map fst snd filter]. fold (pairs_of ms us).
  rewrite filter_app, map_app, IH, U. destruct u as [n|]; [|reflexivity]. cbn [filter snd]. destruct (same_node M n); reflexivity.
Qed.
Lemma downstream_thm : forall reg ms top, wired_below reg ms top -> exists sel : wmeter -> bool,
  (forall m, sel m = true <-> exists n, hangs reg m n /\ equal_nodes top n) /\
  downstream_of_mains reg ms = Ok (map WMeter (filter sel (meters_in ms))).
Proof.
  intros reg ms top (N & O & (m0 & n0 & I0 & H0 & E0) & H1 & H2). destruct (outcomes_list reg _ O) as (us & F).
  exists (fun m => match upstream reg m with Ok (Some n) => same_node top n | _ => false end). split.
  - intros m. unfold hangs. destruct (upstream reg m) as [[n|]|e].
    + rewrite same_node_eq. split; [intros H; exists n; auto|]. intros (n' & E & H). injection E as ->. exact H.
    + split; [discriminate|]. intros (n' & E & _). discriminate.
    + split; [discriminate|]. intros (n' & E & _). discriminate.
  - rewrite (downstream reg ms us top N F).
    + f_equal. apply pairs_filter, F.
    + exists m0, n0. split; [apply (pairs_hangs reg _ _ F); auto|apply same_node_eq, E0].
    + intros m n I. apply (pairs_hangs reg _ _ F) in I. destruct I as [I H]. destruct (same_node top (WMeter m)) eqn:S; [|reflexivity].
      apply same_node_eq in S. destruct (H1 m n I H S).
    + intros m n I. apply (pairs_hangs reg _ _ F) in I. destruct I as [I H]. destruct (H2 m n I H) as [E|(m' & n' & I' & H' & E')].
      * left. apply same_node_eq, E.
      * right. exists m', n'. split; [apply (pairs_hangs reg _ _ F); auto|apply same_node_eq, E'].
Qed.

(** ** The upstream meter of a group *)
Lemma same_opt_eq a b : same_opt a b = true <-> equal_upstream a b.
Proof. destruct a, b; cbn; try (split; [discriminate|intros []]); [apply same_node_eq|split; auto]. Qed.
Lemma equal_sym a b : equal_upstream a b -> equal_upstream b a.
Proof. rewrite <- !same_opt_eq. destruct a, b; cbn; auto. rewrite same_sym. auto. Qed.
Lemma mapM_forall2 reg : forall ms us, Forall2 (fun m u => upstream reg m = Ok u) ms us -> mapM (upstream reg) ms = Ok us.
Proof. intros ms us F. induction F as [|m u ms us U F IH]; [reflexivity|]. cbn [mapM]. rewrite U. cbn [bind]. rewrite IH. reflexivity. Qed.
Lemma add_opt_same : forall us u, Forall (equal_upstream u) us -> fold_left add_opt us [u] = [u].
Proof.
  induction us as [|v us IH]; intros u F; [reflexivity|]. apply Forall_cons_iff in F. destruct F as [E F]. cbn [fold_left]. unfold add_opt at 2.
  cbn [existsb]. apply equal_sym, same_opt_eq in E. rewrite E. cbn. apply IH, F.
Qed.
Lemma add_opt_len : forall us l, length l <= length (fold_left add_opt us l).
Proof.
  induction us as [|v us IH]; intros l; [apply Nat.le_refl|]. cbn [fold_left]. etransitivity; [|apply IH]. unfold add_opt.
  destruct (existsb (same_opt v) l); [lia|]. rewrite app_length. cbn. lia.
Qed.
Lemma add_opt_diff : forall us u, Exists (fun v => ~ equal_upstream u v) us -> 2 <= length (fold_left add_opt us [u]).
Proof.
  intros us u H. induction H as [v us H|v us H IH]; cbn [fold_left]; unfold add_opt at 2; cbn [existsb].
  - destruct (same_opt v u) eqn:S; [apply same_opt_eq, equal_sym in S; contradiction|]. cbn. etransitivity; [|apply add_opt_len]. cbn. lia.
  - destruct (same_opt v u); cbn; [exact IH|]. etransitivity; [|apply add_opt_len]. cbn. lia.
Qed.
Lemma group_upstream_same : forall reg m ms u us, upstream reg m = Ok u -> Forall2 (fun m u => upstream reg m = Ok u) ms us ->
  Forall (equal_upstream u) us -> group_upstream reg (m :: ms) = Ok u.
Proof.
  intros reg m ms u us U F E. unfold group_upstream. rewrite (mapM_forall2 reg (m :: ms) (u :: us)) by (constructor; assumption).
  cbn [bind fold_left]. change (add_opt [] u) with [u]. rewrite (add_opt_same us u E). reflexivity.
Qed.
Lemma group_upstream_diff : forall reg m ms u us, upstream reg m = Ok u -> Forall2 (fun m u => upstream reg m = Ok u) ms us ->
  Exists (fun v => ~ equal_upstream u v) us -> group_upstream reg (m :: ms) = Err RuntimeError.
Proof.
  intros reg m ms u us U F E. unfold group_upstream. rewrite (mapM_forall2 reg (m :: ms) (u :: us)) by (constructor; assumption).
  cbn [bind fold_left]. change (add_opt [] u) with [u]. pose proof (add_opt_diff us u E) as L.
  destruct (fold_left add_opt us [u]) as [|a [|b r]]; cbn in L; try lia. reflexivity.
Qed.
