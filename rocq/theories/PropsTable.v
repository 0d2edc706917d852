(** C85: tables and summaries of the meters of a group. *)
From Coq Require Import Permutation Sorted Lia Reals QArith.
From Verif Require Import Base PipelineModel EnergyModel ColumnsModel TopModel CorrModel TopSpec CorrSpec TableModel TableSpec TableProofs TableProofs2.
Import List. Open Scope nat_scope.

(** [pairwise]: a square table labelled with the identifiers; the two cells of a pair of meters both hold the
    value of the method called on the one that comes first in the group. *)
Theorem C85_pairwise : forall (M I V : Type) (I_dec : forall x y : I, {x = y} + {x <> y}) (ident : M -> I) (method : M -> M -> res V) ms fr,
  NoDup (map ident ms) -> pairwise I_dec ident method ms = Ok fr ->
  square (map ident ms) fr /\
  forall i j a b, i <= j -> at_place ms i a -> at_place ms j b ->
    exists v, method a b = Ok v /\ cell fr (ident a) (ident b) v /\ cell fr (ident b) (ident a) v.
Proof. exact @pairwise_value. Qed.
Print Assumptions C85_pairwise.

(** It raises the exception of the first pair for which the method raises one, and otherwise none. *)
Theorem C85_pairwise_raises : forall (M I V : Type) (I_dec : forall x y : I, {x = y} + {x <> y}) (ident : M -> I) (method : M -> M -> res V) ms e,
  NoDup (map ident ms) ->
  (pairwise I_dec ident method ms = Err e <->
   exists i j a b, i <= j /\ at_place ms i a /\ at_place ms j b /\ method a b = Err e /\
     forall k l x y, k <= l -> at_place ms k x -> at_place ms l y -> before k l i j -> exists v, method x y = Ok v).
Proof. exact @pairwise_fails. Qed.
Print Assumptions C85_pairwise_raises.

(** For a symmetric method the order of the meters makes no difference: each cell is the
    method's value for its two meters. *)
Theorem C85_pairwise_order : forall (M I V : Type) (I_dec : forall x y : I, {x = y} + {x <> y}) (ident : M -> I) (method : M -> M -> res V) ms ms' fr,
  NoDup (map ident ms) -> Permutation ms ms' -> symmetric ms method -> pairwise I_dec ident method ms = Ok fr ->
  exists fr', pairwise I_dec ident method ms' = Ok fr' /\ forall i j v, cell fr' i j v <-> cell fr i j v.
Proof. exact @pairwise_order. Qed.
Print Assumptions C85_pairwise_order.

Definition gap (a b : nat) : res nat := if Nat.eqb a 7 then Err KeyError else Ok (a - b + (b - a)).
Example C85_pairwise_ex : NoDup (map S [3; 1; 6]) /\ symmetric [3; 1; 6] gap /\
  pairwise Nat.eq_dec S gap [3; 1; 6] = Ok [(4, [(4, Some 0); (2, Some 2); (7, Some 3)]); (2, [(4, Some 2); (2, Some 0); (7, Some 5)]); (7, [(4, Some 3); (2, Some 5); (7, Some 0)])] /\
  pairwise Nat.eq_dec S gap [3; 7; 6] = Err KeyError.
Proof.
  split; [repeat constructor; cbn; intuition discriminate|]. split; [|split; reflexivity].
  intros a b [<-|[<-|[<-|[]]]] [<-|[<-|[<-|[]]]]; reflexivity.
Qed.

(** [pairwise_correlation]: of two meters that report at the same times (once resampled to the
    longer of their sample periods), both cells hold the correlation coefficient. *)
Theorem C85_correlation_partial : forall (M I : Type) (I_dec : forall x y : I, {x = y} + {x <> y}) (ident : M -> I) (period : M -> Z) (load : M -> Z -> list chunk) ms fr i j a b ps,
  NoDup (map ident ms) -> pairwise_correlation I_dec ident period load ms = Ok fr -> at_place ms i a -> at_place ms j b -> i <= j ->
  aligned (load a (Z.max (period a) (period b))) (load b (Z.max (period a) (period b))) ps -> 2 <= length ps ->
  forall r, (cell fr (ident a) (ident b) (CVal r) <-> pearson ps r) /\ (cell fr (ident b) (ident a) (CVal r) <-> pearson ps r).
Proof. exact @correlation_cells. Qed.
Print Assumptions C85_correlation_partial.

(** If all of them do, the order of the meters makes no difference. *)
Theorem C85_correlation_order_partial : forall (M I : Type) (I_dec : forall x y : I, {x = y} + {x <> y}) (ident : M -> I) (period : M -> Z) (load : M -> Z -> list chunk) ms ms' fr,
  NoDup (map ident ms) -> Permutation ms ms' ->
  (forall a b, In a ms -> In b ms -> exists ps, aligned (load a (Z.max (period a) (period b))) (load b (Z.max (period a) (period b))) ps) ->
  pairwise_correlation I_dec ident period load ms = Ok fr ->
  exists fr', pairwise_correlation I_dec ident period load ms' = Ok fr' /\ forall i j v, cell fr' i j v <-> cell fr i j v.
Proof. exact @correlation_order. Qed.
Print Assumptions C85_correlation_order_partial.
Example C85_correlation_met : exists ps, aligned [[(0%Z, Some 1%R); (6%Z, Some 2%R)]] [[(0%Z, Some 5%R); (6%Z, Some 3%R)]] ps /\ length ps = 2.
Proof. exists [(1, 5); (2, 3)]%R. split; [|reflexivity]. exact (al_cons [(0%Z, (1, 5)%R); (6%Z, (2, 3)%R)] _ _ _ al_nil). Qed.

(** Otherwise it does: with one meter first the cell of the pair is 2, with the other 1/2. *)
Theorem C85_correlation_order_refuted : exists (load : nat -> Z -> list chunk) fr fr',
  pairwise_correlation Nat.eq_dec (fun m => m) (fun _ => 6%Z) load [0; 1] = Ok fr /\
  pairwise_correlation Nat.eq_dec (fun m => m) (fun _ => 6%Z) load [1; 0] = Ok fr' /\
  cell fr 0 1 (CVal 2) /\ cell fr' 0 1 (CVal (/ 2)).
Proof. exact correlation_order_refuted. Qed.
Print Assumptions C85_correlation_order_refuted.

(** [call_method_on_all_meters]: the meters in order, each with its value; or the exception of the
    first that raises. *)
Theorem C85_each : forall (M I V : Type) (I_dec : forall x y : I, {x = y} + {x <> y}) (ident : M -> I) (method : M -> res V) ms,
  NoDup (map ident ms) ->
  match call_on_all I_dec ident method ms with
  | Ok s => Forall2 (fun m p => fst p = ident m /\ exists v, method m = Ok v /\ snd p = Some v) ms s
  | Err e => exists l m l', ms = l ++ m :: l' /\ method m = Err e /\ forall x, In x l -> exists v, method x = Ok v
  end.
Proof. exact @call_on_all_cases. Qed.
Print Assumptions C85_each.
Example C85_each_ex : call_on_all Nat.eq_dec S (fun m => if Nat.eqb m 7 then Err KeyError else Ok (m * m)) [3; 1] = Ok [(4, Some 9); (2, Some 1)] /\
  call_on_all Nat.eq_dec S (fun m => if Nat.eqb m 7 then Err KeyError else Ok (m * m)) [3; 7] = Err KeyError.
Proof. split; reflexivity. Qed.

(** [proportion_of_upstream_total_per_meter]: every meter with its proportion of the meter upstream of
    it, the largest first, NaN last. *)
Theorem C85_upstream : forall (M I : Type) (I_dec : forall x y : I, {x = y} + {x <> y}) (ident : M -> I) sort (upstream : M -> res (option M)) (share : M -> M -> res num) ms s,
  sorts_down sort -> NoDup (map ident ms) -> upstream_per_meter I_dec ident sort upstream share ms = Ok s ->
  descending s /\ exists s0, Permutation s0 s /\
    Forall2 (fun m p => fst p = ident m /\ exists u v, upstream m = Ok (Some u) /\ share m u = Ok v /\ snd p = Some v) ms s0.
Proof. exact @upstream_value. Qed.
Print Assumptions C85_upstream.

(** A group with a site meter, which has no meter upstream of it, has no such table. *)
Theorem C85_upstream_site_refuted : forall (M I : Type) (I_dec : forall x y : I, {x = y} + {x <> y}) (ident : M -> I) sort (upstream : M -> res (option M)) (share : M -> M -> res num) l m l',
  NoDup (map ident (l ++ m :: l')) -> upstream m = Ok None ->
  (forall x, In x l -> exists u v, upstream x = Ok (Some u) /\ share x u = Ok v) ->
  upstream_per_meter I_dec ident sort upstream share (l ++ m :: l') = Err AttributeError.
Proof. exact @upstream_site. Qed.
Print Assumptions C85_upstream_site_refuted.
Definition fed (m : nat) : res (option nat) := Ok (if Nat.eqb m 1 then None else Some 1).
Definition part (m u : nat) : res num := Ok (Fin (Z.of_nat m # 10)).
Example C85_upstream_ex : upstream_per_meter Nat.eq_dec S (@rev _) fed part [2; 3] = Ok [(4, Some (Fin (3 # 10))); (3, Some (Fin (2 # 10)))] /\
  descending [(4, Some (Fin (3 # 10))); (3, Some (Fin (2 # 10)))] /\ fed 1 = Ok None.
Proof. split; [reflexivity|]. split; [|reflexivity]. repeat constructor. cbn. unfold Qle. cbn. lia. Qed.

(** [sample_period]: the longest of the meters at any depth; ValueError exactly if some
    group has no members. *)
Theorem C85_sample_period : forall t, (forall p, leaf_of t p -> p <> None) ->
  (sample_period t = Err ValueError <-> hollow t) /\
  (~ hollow t -> exists m, sample_period t = Ok (Some m) /\ leaf_of t (Some m) /\ forall p, leaf_of t (Some p) -> (p <= m)%Z).
Proof. exact sample_period_max. Qed.
Print Assumptions C85_sample_period.

(** One meter without a device, among others, and it raises. *)
Theorem C85_sample_period_refuted : forall ps, 2 <= length ps -> In None ps -> sample_period (Group (map Leaf ps)) = Err TypeError.
Proof. exact sample_period_missing. Qed.
Print Assumptions C85_sample_period_refuted.
Definition nest : tree (option Z) := Group [Leaf (Some 6%Z); Group [Leaf (Some 60%Z); Leaf (Some 1%Z)]].
Example C85_sample_period_ex : (forall p, leaf_of nest p -> p <> None) /\ ~ hollow nest /\ sample_period nest = Ok (Some 60%Z) /\
  sample_period (Group [Leaf (Some 6%Z); Group []]) = Err ValueError /\ sample_period (Group [Leaf None]) = Ok None.
Proof.
  split; [|split; [|repeat split; reflexivity]].
  - intros p H. inversion H as [|l t x Ht Hl]; subst. destruct Ht as [<-|[<-|[]]]; inversion Hl as [|l t x Ht Hl']; subst; [discriminate|].
    destruct Ht as [<-|[<-|[]]]; inversion Hl'; subst; discriminate.
  - intros H. inversion H as [|l t Ht Hl]; subst. destruct Ht as [<-|[<-|[]]]; inversion Hl as [|l t Ht Hl']; subst.
    destruct Ht as [<-|[<-|[]]]; inversion Hl'.
Qed.

(** [available_ac_types]: the AC types some meter of the group measures one of the quantities
    in, each once. *)
Theorem C85_ac_types : forall order arg t, distinct order -> valid_request arg ->
  exists ts, group_ac_types order arg t = Ok ts /\ forall a, In a ts <-> exists ms p, leaf_of t ms /\ asked arg p /\ In (p, Some a) ms.
Proof. exact (fun order arg t Ho => group_ac order Ho arg t). Qed.
Print Assumptions C85_ac_types.
Theorem C85_ac_types_once : forall order arg l ts, distinct order -> group_ac_types order arg (Group l) = Ok ts -> NoDup ts.
Proof. exact (fun order arg l ts Ho => group_ac_once order Ho arg l ts). Qed.
Print Assumptions C85_ac_types_once.
(** Anything but known quantities is refused, unless the group has no meters. *)
Theorem C85_ac_types_refused : forall order arg t, ~ valid_request arg -> (exists ms, leaf_of t ms) -> group_ac_types order arg t = Err ValueError.
Proof. exact group_ac_bad. Qed.
Print Assumptions C85_ac_types_refused.

(** [available_physical_quantities]. *)
Theorem C85_quantities : forall order t, distinct order ->
  NoDup (group_quantities order t) /\ forall p, In p (group_quantities order t) <-> exists ms o, leaf_of t ms /\ In (p, o) ms.
Proof. exact group_quantities_spec. Qed.
Print Assumptions C85_quantities.
Definition devices : tree (list measurement) :=
  Group [Leaf [(Power, Some (Known Active)); (Voltage, None)]; Group [Leaf [(Power, Some (Known Apparent)); (EnergyPQ, Some (Known Active)); (Power, Some (Known Active))]]].
Example C85_ac_types_ex : distinct (nodup acname_dec) /\ distinct (nodup pq_dec) /\ valid_request (PqName Power) /\
  group_ac_types (nodup acname_dec) (PqName Power) devices = Ok [Known Apparent; Known Active] /\
  group_ac_types (nodup acname_dec) (PqName (OtherPQ 3)) devices = Err ValueError /\
  group_ac_types (nodup acname_dec) (PqName (OtherPQ 3)) (Group []) = Ok [] /\
  group_quantities (nodup pq_dec) devices = [Voltage; EnergyPQ; Power].
Proof.
  split; [intros l; split; [apply NoDup_nodup|intros x; apply nodup_In]|]. split; [intros l; split; [apply NoDup_nodup|intros x; apply nodup_In]|].
  split; [split; [discriminate|intros p ->; exact Logic.I]|]. repeat split; reflexivity.
Qed.

(** [sort_meters]: the same meters, by instance, those with one instance in the order they had. *)
Theorem C85_sort : forall (M : Type) (instance : M -> inst) l, one_kind instance l ->
  exists l', sort_meters instance l = Ok l' /\ Permutation l l' /\
    StronglySorted (fun x y => inst_le (instance x) (instance y)) l' /\ forall k, with_instance instance k l' = with_instance instance k l.
Proof. exact @sort_ok. Qed.
Print Assumptions C85_sort.

(** A group of both meters and groups cannot be sorted. *)
Theorem C85_sort_refuted : forall (M : Type) (instance : M -> inst) l, ~ one_kind instance l -> sort_meters instance l = Err TypeError.
Proof. exact @sort_mixed. Qed.
Print Assumptions C85_sort_refuted.
Example C85_sort_ex : one_kind snd [(0, IMeter 4); (1, IMeter 2); (2, IMeter 4)] /\
  sort_meters snd [(0, IMeter 4); (1, IMeter 2); (2, IMeter 4)] = Ok [(1, IMeter 2); (0, IMeter 4); (2, IMeter 4)] /\
  ~ one_kind (fun x : inst => x) [IMeter 1; IGroup [2; 3]%Z].
Proof.
  split; [|split; [reflexivity|]].
  - intros x y [<-|[<-|[<-|[]]]] [<-|[<-|[<-|[]]]]; reflexivity.
  - intros H. specialize (H _ _ (or_introl eq_refl) (or_intror (or_introl eq_refl))). discriminate.
Qed.
