(** C69: comparing predictions with the ground truth submeter by submeter. *)
From Verif Require Import Base ItemModel ItemSpec PairModel PairSpec PairProofs PairProofs2.
Import List. Open Scope list_scope. Open Scope Z_scope.

Section Claims.
Context {app V : Type}.
Variable matches : app -> list (nat * obj) -> res bool.
Variable order : list app -> list app.
Variable several : list (node app) -> list obj.
Variable score : node app * found app -> res V.
Notation pairs := (pairs matches order several).
Notation metric := (metric matches order several score).

(** Every submeter of the first group, in order, is paired with its counterpart in the
    second group (all of one data set): same instance and building, or a
    group of the same meters. *)
Theorem C69_pairs : forall d (master slave subs : list (node app)), within_dataset d (Grp slave) -> Filtered is_submeter master subs ->
  Forall (fun m => ordinary (ident m)) subs ->
  forall l, pairs master slave = Ok l <->
    Forall2 (fun m p => exists x, p = (m, One x) /\ First (counterpart d m) slave x) subs l.
Proof. exact (pairs_ok matches order several). Qed.
(** KeyError if and only if some submeter has no counterpart, and no other exception. *)
Theorem C69_missing : forall d (master slave subs : list (node app)), within_dataset d (Grp slave) -> Filtered is_submeter master subs ->
  Forall (fun m => ordinary (ident m)) subs ->
  (pairs master slave = Err KeyError <-> exists m, In m subs /\ forall x, In x slave -> ~ counterpart d m x) /\
  (forall e, pairs master slave = Err e -> e = KeyError).
Proof. exact (pairs_err matches order several). Qed.

(** A metric of submeters with different instances has one entry for each: the score of
    the submeter and its counterpart, under its instance. *)
Theorem C69_metric_partial : forall d (predictions truth subs : list (node app)) r, within_dataset d (Grp truth) -> Filtered is_submeter predictions subs ->
  Forall (fun m => ordinary (ident m)) subs ->
  ForallOrdPairs (fun m m' => ~ Same (instance m) (instance m')) subs ->
  metric predictions truth = Ok r ->
  exists vs, r = combine (map instance subs) vs /\
    Forall2 (fun m v => exists x, First (counterpart d m) truth x /\ score (m, One x) = Ok v) subs vs.
Proof. exact (metric_distinct matches order several score). Qed.
(** In general there is one entry for each instance: the score of the last submeter with
    this instance. *)
Theorem C69_metric_last : forall d (predictions truth subs : list (node app)) r, within_dataset d (Grp truth) -> Filtered is_submeter predictions subs ->
  Forall (fun m => ordinary (ident m)) subs -> metric predictions truth = Ok r -> forall k,
  (Member k (map fst r) <-> exists m, In m subs /\ Same k (instance m)) /\
  (forall m, Last (fun m => Same k (instance m)) subs m ->
     exists x v, First (counterpart d m) truth x /\ score (m, One x) = Ok v /\ get k r = Some v).
Proof. exact (metric_last matches order several score). Qed.
(** When a metric returns and what it raises. *)
Theorem C69_metric_total : forall d (predictions truth subs : list (node app)), within_dataset d (Grp truth) -> Filtered is_submeter predictions subs ->
  Forall (fun m => ordinary (ident m)) subs ->
  ((forall m, In m subs -> exists x, In x truth /\ counterpart d m x) ->
     (forall m x, In m subs -> In x truth -> counterpart d m x -> exists v, score (m, One x) = Ok v) -> exists r, metric predictions truth = Ok r) /\
  ((exists m, In m subs /\ forall x, In x truth -> ~ counterpart d m x) -> metric predictions truth = Err KeyError) /\
  (forall e, metric predictions truth = Err e -> e = KeyError \/ exists m x, In m subs /\ In x truth /\ counterpart d m x /\ score (m, One x) = Err e).
Proof. exact (metric_total matches order several score). Qed.

(** Ground truth whose meters belong to several data sets cannot be used at all. *)
Theorem C69_several_refuted : forall (master slave : list (node app)) i b d a, In (Meter (Int i) b d false a) master -> i <> 0 ->
  dataset (Grp slave) = Many -> (forall i' b' d' s a', In (Meter i' b' d' s a') slave -> ~ Same d' (Tup (several slave))) ->
  exists e, pairs master slave = Err e.
Proof. exact (several_fails matches order several). Qed.
End Claims.
Print Assumptions C69_pairs.
Print Assumptions C69_missing.
Print Assumptions C69_metric_partial.
Print Assumptions C69_metric_last.
Print Assumptions C69_metric_total.
Print Assumptions C69_several_refuted.

(** For the examples: no appliances; the score of two meters is the sum of the instances. *)
Definition ex_matches (a : unit) (q : list (nat * obj)) : res bool := Ok false.
Definition ex_order (l : list unit) : list unit := l.
Definition ex_several (l : list (node unit)) : list obj := [Str 8; Str 9].
Definition m_ (ds : nat) (bld n : Z) : node unit := Meter (Int n) (Int bld) (Str ds) false [].
Definition site_ (ds : nat) (bld n : Z) : node unit := Meter (Int n) (Int bld) (Str ds) true [].
Definition ex_score (p : node unit * found unit) : res Z :=
  match p with (Meter (Int i) (Int b) _ _ _, One (Meter (Int j) (Int c) _ _ _)) => Ok (1000 * b + 100 * i + 10 * c + j) | (Grp l, _) => Ok (Z.of_nat (length l)) | _ => Err TypeError end.
Definition ex_pred : list (node unit) := [site_ 8 1 1; m_ 8 1 2; Grp [m_ 8 1 3; m_ 8 1 4]].
Definition ex_truth : list (node unit) := [Grp [m_ 9 1 4; m_ 9 1 3]; m_ 9 1 5; m_ 9 1 2; site_ 9 1 1].

(** Predictions for two buildings: the entry of the first building is lost. *)
Theorem C69_lost_refuted : exists (predictions truth : list (node unit)) l r, pairs ex_matches ex_order ex_several predictions truth = Ok l /\
  length l = 2%nat /\ metric ex_matches ex_order ex_several ex_score predictions truth = Ok r /\ r = [(Int 2, 2222)].
Proof.
  exists [m_ 8 1 2; m_ 8 2 2], [m_ 9 1 2; m_ 9 2 2]. eexists _, _. split; [vm_compute; reflexivity|]. split; [reflexivity|]. split; vm_compute; reflexivity.
Qed.
Print Assumptions C69_lost_refuted.

Example C69_example : within_dataset (Str 9) (Grp ex_truth) /\ Filtered is_submeter ex_pred (tl ex_pred) /\
  Forall (fun m => ordinary (ident m)) (tl ex_pred) /\
  ForallOrdPairs (fun m m' => ~ Same (instance m) (instance m')) (tl ex_pred) /\
  metric ex_matches ex_order ex_several ex_score ex_pred ex_truth = Ok [(Int 2, 1212); (Tup [Int 3; Int 4], 2)] /\
  pairs ex_matches ex_order ex_several (ex_pred ++ [m_ 8 1 6]) ex_truth = Err KeyError.
Proof.
  split; [constructor; [discriminate|]; repeat (constructor; try reflexivity); discriminate|].
  split.
  { apply Filtered_drop.
    - intros N. apply N. exists (Int 1), (Int 1), (Str 8), []. left. reflexivity.
    - assert (G : forall x : node unit, is_site x = false -> is_submeter x).
      { intros x E H. apply ItemProofs.is_site_iff in H. congruence. }
      apply Filtered_keep; [apply G; reflexivity|]. apply Filtered_keep; [apply G; reflexivity|]. constructor. }
  split; [repeat (constructor; try discriminate)|].
  split; [repeat constructor; discriminate|]. split; vm_compute; reflexivity.
Qed.
Example C69_example_several : exists e, pairs ex_matches ex_order ex_several [m_ 7 1 2] [m_ 8 1 2; m_ 9 1 2] = Err e.
Proof.
  apply (C69_several_refuted ex_matches ex_order ex_several) with (i := 2) (b := Int 1) (d := Str 7) (a := []).
  - left. reflexivity.
  - discriminate.
  - reflexivity.
  - intros i' b' d' s a' [E|[E|[]]]; injection E as <- <- <- <- <-; discriminate.
Qed.
