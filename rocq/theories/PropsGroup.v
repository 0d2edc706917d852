(** C35: set operations on meter groups. *)
From Verif Require Import Base GroupModel GroupSpec GroupProofs MatchModel MatchProofs.
From Coq Require Import Permutation.
Open Scope nat_scope.

Definition ex_mains : node := Leaf 1 1 1 true.
Definition ex_fridge_meter : node := Leaf 2 1 1 false.
Definition ex_tv : node := Leaf 3 1 1 false.
Definition ex_nested : node := Group 0 [Leaf 4 1 1 false; Leaf 5 1 1 false] [].
Definition ex_mains2 : node := Leaf 9 1 1 true.
Definition ex_group : group := mkGroup [ex_fridge_meter; ex_mains; ex_nested; ex_tv] [ex_mains2].

(** mains() and submeters() partition the group, each keeping the order: the mains are the
    nodes having a site meter in them, the submeters all the others. *)
Theorem C35_partition : forall (g : group) (r : mains_result), mains g = Ok r ->
  interleaves (mains_meters r) (g_meters (submeters g)) (g_meters g) /\
  (forall x, In x (mains_meters r) -> exists y, leaf_of y x /\ site_of y = true) /\
  (forall x, In x (g_meters (submeters g)) -> ~ exists y, leaf_of y x /\ site_of y = true).
Proof.
  intros g r H. rewrite (mains_ok g r H). cbn [submeters g_meters]. split; [apply filter_interleaves|]. split; intros x Hx; apply filter_In in Hx; destruct Hx as [_ Hx].
  - apply is_site_iff. exact Hx.
  - rewrite <- is_site_iff. destruct (is_site x); [discriminate Hx|discriminate].
Qed.
Print Assumptions C35_partition.
Example C35_partition_example : mains ex_group = Ok (OneMains ex_mains) /\ g_meters (submeters ex_group) = [ex_fridge_meter; ex_nested; ex_tv].
Proof. split; reflexivity. Qed.

(** One site meter is returned as such, several as a group, none as None. *)
Theorem C35_mains_shape : forall (g : group) (r : mains_result), mains g = Ok r ->
  match r with NoMains => True | OneMains _ => True | MainsGroup l => length l >= 2 end.
Proof.
  intros g r. unfold mains. destruct (several_buildings g); [discriminate|]. intros H. injection H as <-. destruct (filter is_site (g_meters g)) as [|x [|y l]]; try exact I. cbn. apply le_n_S, le_n_S, Nat.le_0_l.
Qed.
Print Assumptions C35_mains_shape.

(** mains() is refused exactly for meters from several buildings. *)
Theorem C35_mains_refuses : forall g : group, Forall full (g_meters g) ->
  (mains g = Err RuntimeError <-> exists x y b b', leaf_in_group x g /\ leaf_in_group y g /\ building_of x = Some b /\ building_of y = Some b' /\ b <> b') /\
  (forall e, mains g = Err e -> e = RuntimeError).
Proof.
  intros g HF. rewrite <- (several_iff g HF). unfold mains. destruct (several_buildings g); split.
  - split; reflexivity.
  - congruence.
  - split; discriminate.
  - discriminate.
Qed.
Print Assumptions C35_mains_refuses.
Example C35_mains_refuses_example : Forall full (g_meters ex_group) /\ mains (mkGroup [ex_tv; Group 0 [Leaf 7 2 1 false] []] []) = Err RuntimeError.
Proof. split; [repeat constructor; discriminate|reflexivity]. Qed.

(** A nested group that has lost its meters counts as another building. *)
Theorem C35_empty_nested_refuted : exists g : group, (forall x, leaf_in_group x g -> building_of x = Some 1) /\ mains g = Err RuntimeError.
Proof.
  exists (mkGroup [ex_mains; Group 0 [] []] []). split; [|reflexivity]. intros x (y & [<-|[<-|[]]] & L); inversion L as [|x' n' ms' ds' z Hz Lz]; subst; [reflexivity|]. destruct Hz.
Qed.
Print Assumptions C35_empty_nested_refuted.

(** use_alternative_mains never loses or duplicates a meter: however equal the meters are,
    every meter is there as often as before; it is refused, with nothing
    changed, exactly if no disabled meter is a site meter. *)
Theorem C35_alternative_keeps : forall g : group,
  ((exists x, In x (g_disabled g) /\ is_site x = true) -> exists g', use_alternative_mains g = Ok g' /\ forall x, copies x (g_meters g' ++ g_disabled g') = copies x (g_meters g ++ g_disabled g)) /\
  ((~ exists x, In x (g_disabled g) /\ is_site x = true) -> use_alternative_mains g = Err RuntimeError).
Proof.
  intros g. split.
  - intros (x & Hx & S). apply alternative_thm. intros E. assert (F : In x (filter is_site (g_disabled g))) by (apply filter_In; auto). rewrite E in F. destruct F.
  - intros N. unfold use_alternative_mains. destruct (filter is_site (g_disabled g)) as [|x l] eqn:E; [reflexivity|]. exfalso. apply N. exists x. apply filter_In. rewrite E. left. reflexivity.
Qed.
Print Assumptions C35_alternative_keeps.

(** When equal meters are the same meter, the site meters are exactly swapped. *)
Theorem C35_alternative_swaps : forall g g' : group, identified (g_meters g ++ g_disabled g) -> use_alternative_mains g = Ok g' ->
  (forall x, is_site x = true -> (In x (g_meters g') <-> In x (g_disabled g)) /\ (In x (g_disabled g') <-> In x (g_meters g))) /\
  (forall x, is_site x = false -> (In x (g_meters g') <-> In x (g_meters g)) /\ (In x (g_disabled g') <-> In x (g_disabled g))) /\
  Permutation (g_meters g' ++ g_disabled g') (g_meters g ++ g_disabled g).
Proof.
  intros g g' HI E. destruct (alternative_exact g g' HI E) as [M D].
  assert (ID : forall x, In x (g_disabled g') <-> In x (filter (fun x => negb (is_site x)) (g_disabled g) ++ filter is_site (g_meters g))) by (intros x; split; apply Permutation_in; [|symmetry]; exact D).
  split; [|split].
  - intros x S. rewrite ID, M, !in_app_iff, !filter_In, S. cbn. intuition congruence.
  - intros x S. rewrite ID, M, !in_app_iff, !filter_In, S. cbn. intuition congruence.
  - rewrite M, D. transitivity ((filter is_site (g_meters g) ++ filter (fun x => negb (is_site x)) (g_meters g)) ++ filter is_site (g_disabled g) ++ filter (fun x => negb (is_site x)) (g_disabled g)); [|apply Permutation_app; symmetry; apply filter_split].
    rewrite app_assoc. rewrite (Permutation_app_comm _ (filter is_site (g_meters g))). rewrite <- !app_assoc. reflexivity.
Qed.
Print Assumptions C35_alternative_swaps.
Example C35_alternative_example : identified (g_meters ex_group ++ g_disabled ex_group) /\
  use_alternative_mains ex_group = Ok (mkGroup [ex_fridge_meter; ex_nested; ex_tv; ex_mains2] [ex_mains]).
Proof.
  split; [|reflexivity]. intros x y Hx Hy. cbn in Hx, Hy. intuition subst; try reflexivity; discriminate.
Qed.

(** union holds every meter of both groups once. *)
Theorem C35_union : forall (order : list node -> list node) (g g' u : group), (forall l, Permutation l (order l)) ->
  Forall is_leaf (g_meters g) -> Forall is_leaf (g_meters g') -> union order g (GroupArg g') = Ok u ->
  (forall x, copies x (g_meters u) = if Nat.ltb 0 (copies x (g_meters g ++ g_meters g')) then 1 else 0) /\
  (forall x, In x (g_meters u) -> In x (g_meters g) \/ In x (g_meters g')) /\ g_disabled u = [].
Proof.
  intros order g g' u HO L L' E. split; [exact (union_leaves order g g' u HO L L' E)|]. destruct (union_thm order g g' u HO E) as (D & _ & _ & I). split; assumption.
Qed.
Print Assumptions C35_union.
Theorem C35_union_type : forall (order : list node -> list node) (g : group), union order g OtherArg = Err TypeError.
Proof. reflexivity. Qed.
Print Assumptions C35_union_type.
Example C35_union_example : union (@rev node) (mkGroup [ex_mains; ex_tv] []) (GroupArg (mkGroup [ex_tv; ex_fridge_meter] [])) = Ok (mkGroup [ex_fridge_meter; ex_tv; ex_mains] []) /\ (forall l, Permutation l (@rev node l)).
Proof. split; [reflexivity|apply Permutation_rev]. Qed.

(** Equal groups need not hash alike, so a union may keep the same nested group twice. *)
Theorem C35_union_nested_refuted : exists g g' : group, exists x y : node, node_eq x y = true /\ hash x <> hash y /\
  forall order, (forall l, Permutation l (order l)) -> exists u, union order g (GroupArg g') = Ok u /\ copies x (g_meters u) = 2.
Proof.
  exists (mkGroup [ex_nested] []), (mkGroup [Group 0 [Leaf 5 1 1 false; Leaf 4 1 1 false] []] []), ex_nested, (Group 0 [Leaf 5 1 1 false; Leaf 4 1 1 false] []).
  split; [reflexivity|]. split; [discriminate|]. intros order HO. eexists. split; [reflexivity|]. cbn [g_meters].
  assert (P : forall x l l', Permutation l l' -> copies x l = copies x l'). { intros x l l' H. unfold copies. apply Permutation_length. apply filter_perm. exact H. }
  rewrite <- (P _ _ _ (HO _)). reflexivity.
Qed.
Print Assumptions C35_union_nested_refuted.

(** select with keywords: exactly the nodes matching the query, in their order, or KeyError
    if there is none. [f] is any of the matching methods; what a meter says about a
    query is C44. *)
Theorem C35_select : forall (A : Type) (f : A -> query -> res bool) (l : list A) (kw : dict), (forall x e, In x l -> f x (QDict kw) = Err e -> e = KeyError) ->
  (forall k vs, kw <> [(k, ListV vs)]) ->
  match select f l kw with
  | Ok r => (exists rest, interleaves r rest l /\ (forall x, In x r -> f x (QDict kw) = Ok true) /\ (forall x, In x rest -> f x (QDict kw) <> Ok true)) /\ r <> []
  | Err e => e = KeyError /\ forall x, In x l -> f x (QDict kw) <> Ok true
  end.
Proof.
  intros A f l kw HE HK.
  assert (E : select f l kw = select_one f l kw). { destruct kw as [|[k [n|vs]] [|p kw']]; try reflexivity. exfalso. apply (HK k vs). reflexivity. }
  rewrite E. destruct (select_one_thm f l kw HE) as [S1 S2].
  assert (M : forall x, match f x (QDict kw) with Ok b => b | Err _ => false end = true <-> f x (QDict kw) = Ok true) by (intros x; destruct (f x (QDict kw)); split; congruence).
  destruct (matching f l kw) as [|y r] eqn:EM.
  - rewrite (S2 eq_refl). split; [reflexivity|]. intros x Hx X. apply M in X. assert (F : In x (matching f l kw)) by (apply filter_In; auto). rewrite EM in F. destruct F.
  - rewrite S1 by discriminate. split; [|discriminate]. rewrite <- EM. exists (filter (fun x => negb (match f x (QDict kw) with Ok b => b | Err _ => false end)) l). split; [apply filter_interleaves|]. split; intros x Hx; apply filter_In in Hx; destruct Hx as [_ Hx].
    + apply M. exact Hx.
    + rewrite <- M. intros X. rewrite X in Hx. discriminate.
Qed.
Print Assumptions C35_select.
Definition ex_select_meter (i room : nat) : meter := mkMeter (Atom i) (Atom 1) (Atom 1) [(Word 0, Atom room)] (Ok []) [].
Example C35_select_example : select meter_matches [ex_select_meter 1 7; ex_select_meter 2 8; ex_select_meter 3 7] [(Word 0, Atom 7)] = Ok [ex_select_meter 1 7; ex_select_meter 3 7] /\
  select meter_matches [ex_select_meter 1 7; ex_select_meter 2 8] [(Word 1, Atom 7)] = Err KeyError.
Proof. split; reflexivity. Qed.

(** With a list of values: the meters matching one of the values; KeyError if some
    value matches no meter. *)
Theorem C35_select_list : forall (A : Type) (f : A -> query -> res bool) (l : list A) (k : name) (vs : list nat),
  (forall x v e, In x l -> In v vs -> f x (QDict [(k, Atom v)]) = Err e -> e = KeyError) ->
  match select f l [(k, ListV vs)] with
  | Ok r => (forall x, In x r <-> In x l /\ exists v, In v vs /\ f x (QDict [(k, Atom v)]) = Ok true) /\ (forall v, In v vs -> exists x, In x l /\ f x (QDict [(k, Atom v)]) = Ok true)
  | Err e => e = KeyError /\ exists v, In v vs /\ forall x, In x l -> f x (QDict [(k, Atom v)]) <> Ok true
  end.
Proof. exact @select_list_thm. Qed.
Print Assumptions C35_select_list.
Example C35_select_list_example : select meter_matches [ex_select_meter 1 7; ex_select_meter 2 8; ex_select_meter 3 7] [(InstanceN, ListV [2; 1])] = Ok [ex_select_meter 2 8; ex_select_meter 1 7].
Proof. reflexivity. Qed.

(** So a meter may be selected twice. *)
Theorem C35_select_twice_refuted : exists (types : value -> option app_type) (m : meter) (k : name) (v w : nat), v <> w /\
  select (matches_appliances types true) [m] [(k, ListV [v; w])] = Ok [m; m].
Proof.
  exists (fun _ => Some (mkType [(SynonymsN, ListV [2])] None)), (mkMeter (Atom 1) (Atom 1) (Atom 1) [] (Ok []) [mkApp [(TypeN, Atom 1)]]), TypeN, 1, 2.
  split; [discriminate|reflexivity].
Qed.
Print Assumptions C35_select_twice_refuted.
