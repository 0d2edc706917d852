(** Property theorems about time frames (C01-C08, C46). *)
From Verif Require Import Base TimeFrameModel TimeFrameSpec TimeFrameProofs.
Open Scope Z_scope.

(** ** C01: a TimeFrame is never inverted, after any history of edits. *)

Theorem C01_constructor : forall s e,
  (exists t, mk s e = Ok t /\ tf_start t = s /\ tf_end t = e /\ tf_empty t = false /\ tf_incl t = false
     /\ (forall a b, s = Some a -> e = Some b -> a < b))
  \/ (mk s e = Err ValueError /\ exists a b, s = Some a /\ e = Some b /\ b <= a).
Proof. exact mk_outcome. Qed.
Print Assumptions C01_constructor.

(** A rejected or accepted assignment of [start]: what is accepted, what
    changes, what does not. *)
Theorem C01_set_start : forall t o,
  (exists t', set_start t o = Ok t' /\ tf_start_ t' = o /\ tf_end_ t' = tf_end_ t
     /\ tf_enabled t' = tf_enabled t /\ tf_empty t' = tf_empty t /\ tf_incl t' = tf_incl t
     /\ (forall s e, o = Some s -> tf_end t = Some e -> s < e))
  \/ (set_start t o = Err ValueError /\ exists s e, o = Some s /\ tf_end t = Some e /\ e <= s).
Proof. exact set_start_outcome. Qed.
Print Assumptions C01_set_start.

Theorem C01_set_end : forall t o,
  (exists t', set_end t o = Ok t' /\ tf_end_ t' = o /\ tf_start_ t' = tf_start_ t
     /\ tf_enabled t' = tf_enabled t /\ tf_empty t' = tf_empty t /\ tf_incl t' = tf_incl t
     /\ (forall s e, tf_start t = Some s -> o = Some e -> s < e))
  \/ (set_end t o = Err ValueError /\ exists s e, tf_start t = Some s /\ o = Some e /\ e <= s).
Proof. exact set_end_outcome. Qed.
Print Assumptions C01_set_end.

(** Every reachable frame is ordered, if assignments are made while enabled. *)
Theorem C01_never_inverted_partial : forall s e t history,
  mk s e = Ok t -> disciplined true history ->
  ordered (fold_left apply_edit history t).
Proof. exact history_ordered. Qed.
Print Assumptions C01_never_inverted_partial.

Example C01_example : exists t,
  mk (Some 10) (Some 20) = Ok t /\
  disciplined true [SetEnabled false; SetEnabled true; SetStart (Some 25); SetEnd (Some 40); SetStart (Some 25)] /\
  tf_start (fold_left apply_edit
    [SetEnabled false; SetEnabled true; SetStart (Some 25); SetEnd (Some 40); SetStart (Some 25)] t) = Some 25.
Proof. eexists. split; [reflexivity|]. split; [simpl; auto 10|reflexivity]. Qed.

(** Without that discipline a frame can be inverted. *)
Theorem C01_never_inverted_refuted : exists t history,
  mk (Some 10) (Some 20) = Ok t /\ ~ ordered (fold_left apply_edit history t).
Proof. exact history_inverted. Qed.
Print Assumptions C01_never_inverted_refuted.

(** ** C02: intersection is the set intersection. *)

Theorem C02_intersection : forall a b, exists c,
  intersection a b = Ok c /\
  (forall i, inTF c i <-> inTF a i /\ inTF b i) /\
  (tf_empty c = true <-> forall i, ~ (inTF a i /\ inTF b i)) /\
  ordered c.
Proof. exact intersection_spec. Qed.
Print Assumptions C02_intersection.

Theorem C02_commutative : forall a b, exists c d,
  intersection a b = Ok c /\ intersection b a = Ok d /\ tf_eq c d = true.
Proof. exact intersection_comm. Qed.
Print Assumptions C02_commutative.

Theorem C02_associative : forall a b c, exists ab bc l r,
  intersection a b = Ok ab /\ intersection ab c = Ok l /\
  intersection b c = Ok bc /\ intersection a bc = Ok r /\ tf_eq l r = true.
Proof. exact intersection_assoc. Qed.
Print Assumptions C02_associative.

Theorem C02_idempotent : forall a, canonical a ->
  exists c, intersection a a = Ok c /\ tf_eq c a = true.
Proof. exact intersection_idem. Qed.
Print Assumptions C02_idempotent.

Example C02_example : exists a b c,
  mk (Some 0) (Some 10) = Ok a /\ mk (Some 4) None = Ok b /\
  canonical a /\ canonical b /\
  intersection a b = Ok c /\ tf_start c = Some 4 /\ tf_end c = Some 10 /\ inTF c 4 /\ ~ inTF c 10.
Proof.
  do 3 eexists. split; [reflexivity|]. split; [reflexivity|].
  split; [split; [intros s e Hs He; inversion Hs; inversion He; lia|discriminate]|].
  split; [split; [intros s e Hs He; inversion Hs; inversion He|discriminate]|].
  split; [reflexivity|]. repeat split; try (intros x Hx; inversion Hx; lia).
  intros (_ & _ & H). specialize (H 10 eq_refl). lia.
Qed.

(** ** C03: the end point.  The intersection is right about its end point for
    every instant exactly when none of three situations arises. *)

Theorem C03_end_point_exact : forall a b, ordered a -> ordered b ->
  exists c, intersection a b = Ok c /\
  ((forall i, inTFc c i <-> inTFc a i /\ inTFc b i) <-> ~ end_point_bad a b).
Proof. exact closed_intersection_exact. Qed.
Print Assumptions C03_end_point_exact.

Theorem C03_end_point_refuted : exists a b c d i,
  ordered a /\ ordered b /\ intersection a b = Ok c /\ intersection b a = Ok d /\
  inTFc c i /\ ~ inTFc a i /\ ~ inTFc d i.
Proof. exact closed_intersection_refuted. Qed.
Print Assumptions C03_end_point_refuted.

Theorem C03_touching_refuted : exists a b c i,
  ordered a /\ ordered b /\ intersection a b = Ok c /\
  inTFc a i /\ inTFc b i /\ ~ inTFc c i.
Proof. exact closed_intersection_touching. Qed.
Print Assumptions C03_touching_refuted.

(** ** C04: split tiles the frame exactly. *)

Theorem C04_split_tiles : forall t s e thr, bounded t s e -> 0 < thr ->
  exists l, split t thr = (l, None) /\ chain s l e /\
    Forall (fun p => exists d, duration_is p d /\ 0 < d <= thr) l /\
    (forall l' z, l = l' ++ [z] -> Forall (fun p => duration_is p thr) l') /\
    (forall i, inTF t i <-> covers l i) /\ no_overlap l.
Proof. exact split_tiles. Qed.
Print Assumptions C04_split_tiles.

Theorem C04_split_whole : forall t s e thr, bounded t s e -> e - s <= thr ->
  split t thr = ([t], None).
Proof. exact split_whole. Qed.
Print Assumptions C04_split_whole.

Theorem C04_split_rejects_nonpositive : forall t s e thr, bounded t s e -> thr <= 0 ->
  split t thr = ([], Some ValueError).
Proof. exact split_nonpositive. Qed.
Print Assumptions C04_split_rejects_nonpositive.

Theorem C04_split_many : forall thr, 0 < thr -> forall l, Forall is_bounded l ->
  exists r, split_timeframes l thr = (r, None) /\
    (forall i, covers r i <-> covers l i) /\
    Forall (fun p => exists d, duration_is p d /\ 0 < d <= thr) r /\
    (no_overlap l -> no_overlap r).
Proof. exact split_timeframes_covers. Qed.
Print Assumptions C04_split_many.

Example C04_example : exists t, mk (Some 0) (Some 10) = Ok t /\ bounded t 0 10 /\
  map to_dict (fst (split t 4)) = [(Some 0, Some 4); (Some 4, Some 8); (Some 8, Some 10)] /\
  map to_dict (fst (split t 5)) = [(Some 0, Some 5); (Some 5, Some 10)].
Proof. eexists. split; [reflexivity|]. split; [repeat split|]. split; reflexivity. Qed.

(** The documentation promises a [ValueError] for an unbounded frame; in
    Python 3 the guard is never taken and an [AttributeError] escapes. *)
Theorem C04_unbounded_guard_refuted : exists t, mk (Some 0) None = Ok t /\
  forall thr, split t thr = ([], Some AttributeError).
Proof. exact split_unbounded. Qed.
Print Assumptions C04_unbounded_guard_refuted.

(** The last piece drops [include_end]. *)
Theorem C04_include_end_refuted : exists t thr l, bounded t 0 10 /\
  split t thr = (l, None) /\ inTFc t 10 /\ forall p, In p l -> ~ inTFc p 10.
Proof. exact split_include_end. Qed.
Print Assumptions C04_include_end_refuted.

(** ** C05: merging neither loses nor invents time except across allowed gaps. *)

Theorem C05_merge : forall gap l, 0 <= gap -> Forall is_bounded l -> in_order l ->
  exists r, merge_timeframes l gap = Ok r /\ Forall is_bounded r /\ in_order r /\
    spaced gap r /\
    (forall i, covers l i -> covers r i) /\
    (forall i, covers r i -> covers l i \/
       exists x y ex sy, consecutive x y l /\ tf_end x = Some ex /\ tf_start y = Some sy /\
         ex <= i < sy /\ sy - ex <= gap) /\
    merge_timeframes r gap = Ok r.
Proof. exact merge_spec. Qed.
Print Assumptions C05_merge.

Theorem C05_merge_gap0 : forall l, Forall is_bounded l -> in_order l ->
  exists r, merge_timeframes l 0 = Ok r /\ forall i, covers r i <-> covers l i.
Proof. exact merge_gap0_exact. Qed.
Print Assumptions C05_merge_gap0.

Example C05_example : exists a b c r,
  mk (Some 0) (Some 10) = Ok a /\ mk (Some 12) (Some 20) = Ok b /\ mk (Some 23) (Some 30) = Ok c /\
  Forall is_bounded [a; b; c] /\ in_order [a; b; c] /\
  merge_timeframes [a; b; c] 2 = Ok r /\ map to_dict r = [(Some 0, Some 20); (Some 23, Some 30)].
Proof.
  do 4 eexists. split; [reflexivity|]. split; [reflexivity|]. split; [reflexivity|].
  split; [repeat constructor; do 2 eexists; repeat split|].
  split; [simpl; repeat split; intros e s He Hs; inversion He; inversion Hs; lia|].
  split; reflexivity.
Qed.

(** Overlapping frames (still sorted by start) are not merged, so the merged
    list counts the shared time twice. *)
Theorem C05_overlapping_refuted : exists l r u, Forall is_bounded l /\
  merge_timeframes l 0 = Ok r /\ uptime r = Ok u /\ measure r 0 20 < u.
Proof. exact merge_overlapping. Qed.
Print Assumptions C05_overlapping_refuted.

(** ** C06: dictionary round trip. *)

Theorem C06_dict_roundtrip_partial : forall t, ordered t -> exists t',
  from_dict (to_dict t) = Ok t' /\ tf_start t' = tf_start t /\ tf_end t' = tf_end t /\
  (tf_empty t = false -> tf_eq t' t = true /\ forall i, inTF t' i <-> inTF t i) /\
  (tf_empty t = true -> exists i, inTF t' i /\ ~ inTF t i).
Proof. exact dict_roundtrip. Qed.
Print Assumptions C06_dict_roundtrip_partial.

(** The empty frame comes back as the unbounded one. *)
Theorem C06_empty_refuted : exists a b c d,
  ordered a /\ ordered b /\ intersection a b = Ok c /\ tf_empty c = true /\
  from_dict (to_dict c) = Ok d /\ forall i, inTF d i.
Proof. exact dict_empty. Qed.
Print Assumptions C06_empty_refuted.

(** ** C07: TimeFrameGroup intersection and uptime. *)

Theorem C07_group_intersection : forall g h, exists r, group_intersection g h = Ok r /\
  forall i, covers r i <-> covers g i /\ covers h i.
Proof. exact group_intersection_covers. Qed.
Print Assumptions C07_group_intersection.

Theorem C07_group_intersection_disjoint : forall g h,
  Forall is_bounded g -> Forall is_bounded h -> no_overlap g -> no_overlap h ->
  exists r u v w, group_intersection g h = Ok r /\ no_overlap r /\ Forall is_bounded r /\
    uptime r = Ok u /\ uptime g = Ok v /\ uptime h = Ok w /\ u <= v /\ u <= w.
Proof. exact group_intersection_full. Qed.
Print Assumptions C07_group_intersection_disjoint.

(** Uptime counts the covered instants ... *)
Theorem C07_uptime_is_measure : forall lo n g,
  Forall is_bounded g -> no_overlap g -> within g lo n -> uptime g = Ok (measure g lo n).
Proof. exact uptime_measure. Qed.
Print Assumptions C07_uptime_is_measure.

(** ... so it does not depend on how the covered time is cut into frames. *)
Theorem C07_uptime_extensional : forall g h,
  Forall is_bounded g -> Forall is_bounded h -> no_overlap g -> no_overlap h ->
  (forall i, covers g i <-> covers h i) -> uptime g = uptime h.
Proof. exact uptime_ext. Qed.
Print Assumptions C07_uptime_extensional.

Example C07_example : exists a b c r,
  mk (Some 0) (Some 10) = Ok a /\ mk (Some 12) (Some 20) = Ok b /\ mk (Some 8) (Some 15) = Ok c /\
  Forall is_bounded [a; b] /\ no_overlap [a; b] /\ Forall is_bounded [c] /\ no_overlap [c] /\
  group_intersection [a; b] [c] = Ok r /\
  map to_dict r = [(Some 8, Some 10); (Some 12, Some 15)] /\ uptime r = Ok 5.
Proof.
  do 4 eexists. split; [reflexivity|]. split; [reflexivity|]. split; [reflexivity|].
  split; [repeat constructor; do 2 eexists; repeat split|].
  split.
  { intros j k x y i Hj Hk (_ & Hx1 & Hx2) (_ & Hy1 & Hy2).
    destruct j as [|[|[|j]]]; destruct k as [|[|[|k]]]; simpl in Hj, Hk; try discriminate; auto;
    inversion Hj; inversion Hk; subst;
    specialize (Hx1 _ eq_refl); specialize (Hx2 _ eq_refl);
    specialize (Hy1 _ eq_refl); specialize (Hy2 _ eq_refl); lia. }
  split; [repeat constructor; do 2 eexists; repeat split|].
  split; [intros [|[|j]] [|[|k]] x y i Hj Hk _ _; simpl in *; try discriminate; auto|].
  split; [reflexivity|]. split; reflexivity.
Qed.

(** ** C08: remove_shorter_than. *)

Theorem C08_remove_shorter_than : forall thr g, Forall is_bounded g ->
  exists r, remove_shorter_than g thr = Ok r /\
    r = filter (fun t => match tf_start t, tf_end t with
                         | Some s, Some e => thr <=? e - s | _, _ => false end) g.
Proof. exact remove_shorter_than_spec. Qed.
Print Assumptions C08_remove_shorter_than.

Theorem C08_remove_shorter_twice : forall s t g, Forall is_bounded g ->
  exists r, remove_shorter_than g s = Ok r /\
    remove_shorter_than r t = remove_shorter_than g (Z.max s t).
Proof. exact remove_shorter_twice. Qed.
Print Assumptions C08_remove_shorter_twice.

Example C08_example : exists a b, mk (Some 0) (Some 10) = Ok a /\ mk (Some 12) (Some 20) = Ok b /\
  Forall is_bounded [a; b] /\ remove_shorter_than [a; b] 9 = Ok [a] /\ remove_shorter_than [a; b] 8 = Ok [a; b].
Proof.
  do 2 eexists. split; [reflexivity|]. split; [reflexivity|].
  split; [repeat constructor; do 2 eexists; repeat split|]. split; reflexivity.
Qed.

(** ** C46: equality, hashing and ordering of frames are consistent. *)

Theorem C46_eq_hash : forall a b, tf_eq a b = true <-> tf_hash_key a = tf_hash_key b.
Proof. exact tf_eq_hash. Qed.
Print Assumptions C46_eq_hash.

Theorem C46_eq_same_instants : forall a b, tf_eq a b = true -> forall i, inTF a i <-> inTF b i.
Proof. exact tf_eq_instants. Qed.
Print Assumptions C46_eq_same_instants.

Theorem C46_same_instants_eq : forall a b, canonical a -> canonical b ->
  (forall i, inTF a i <-> inTF b i) -> tf_eq a b = true.
Proof. exact same_instants_eq. Qed.
Print Assumptions C46_same_instants_eq.

(** [<] never fails and is a strict order on frames at most one of which
    starts at minus infinity, and [sorted] can rely on it. *)
Theorem C46_lt_strict_order : forall a b c,
  tf_start a <> None ->
  tf_lt a a = Ok false /\
  (tf_lt a b = Ok true -> tf_lt b c = Ok true -> tf_lt a c = Ok true) /\
  (tf_lt a b = Ok true -> tf_lt b a = Ok false) /\
  (tf_lt a b = Ok false -> tf_lt b a = Ok false -> tf_start a = tf_start b).
Proof. exact tf_lt_order. Qed.
Print Assumptions C46_lt_strict_order.

Theorem C46_lt_unbounded_refuted : exists a b, mk None (Some 1) = Ok a /\ mk None (Some 2) = Ok b /\
  tf_lt a b = Err TypeError.
Proof. exact tf_lt_fails. Qed.
Print Assumptions C46_lt_unbounded_refuted.

Example C46_example : exists a b, mk (Some 0) (Some 10) = Ok a /\ mk (Some 5) None = Ok b /\
  tf_start a <> None /\ tf_lt a b = Ok true /\ tf_eq a a = true /\ tf_eq a b = false.
Proof. do 2 eexists. repeat split; try reflexivity. discriminate. Qed.
