(** Property theorems about Results tables and dropout rates (C17-C21). *)
From Verif Require Import Base TimeFrameModel TimeFrameSpec SortLib ResultsModel ResultsSpec ResultsProofs DropoutProofs.
From Coq Require Import QArith Qminmax Sorted Permutation.
Open Scope Z_scope.

(** ** C17: the dropout rate is a proportion. *)

Theorem C17_dropout_rate : forall index period, 0 < period -> StronglySorted Z.lt index ->
  (length index < 5)%nat /\ get_dropout_rate index period = Ok None \/
  exists first last m q, nth_error index 0 = Some first /\ last_opt index = Some last /\
    nearest m (last - first) period /\ get_dropout_rate index period = Ok (Some q) /\
    (0 <= q <= 1)%Q /\
    (q == Qmax 0 (1 - inject_Z (Z.of_nat (length index)) / inject_Z (m + 1)))%Q.
Proof. exact dropout_in_range. Qed.
Print Assumptions C17_dropout_rate.

Theorem C17_perfect_sampling : forall index period, 0 < period -> perfectly_sampled index period ->
  (5 <= length index)%nat -> exists q, get_dropout_rate index period = Ok (Some q) /\ (q == 0)%Q.
Proof. exact dropout_perfect. Qed.
Print Assumptions C17_perfect_sampling.

Theorem C17_not_increasing_asserts : forall first rest last period,
  last_opt (first :: rest) = Some last -> (5 <= length (first :: rest))%nat -> last <= first ->
  get_dropout_rate (first :: rest) period = Err AssertionError.
Proof. exact dropout_assertion. Qed.
Print Assumptions C17_not_increasing_asserts.

(** Sample-weighted mean, if every chunk has a rate. *)
Theorem C17_combined_partial : forall data ps,
  map (fun r => (d_rate (r_val r), d_n (r_val r))) data = map (fun p => (Some (fst p), snd p)) ps ->
  sumZ (map snd ps) <> 0 -> exists q, dropout_simple data = Ok q /\ (q == weighted_mean ps)%Q.
Proof. exact dropout_simple_weighted. Qed.
Print Assumptions C17_combined_partial.

Theorem C17_combined_range : forall data, data <> [] ->
  Forall (fun r => 0 <= d_n (r_val r)) data ->
  Forall (fun r => forall x, d_rate (r_val r) = Some x -> (0 <= x <= 1)%Q) data ->
  exists q, dropout_simple data = Ok q /\ (0 <= q <= 1)%Q.
Proof. exact dropout_simple_range. Qed.
Print Assumptions C17_combined_range.

(** A chunk too short to have a rate (NaN) still counts in the weights. *)
Theorem C17_combined_nan_refuted : exists data : table dropout,
  map (fun r => d_rate (r_val r)) data = [Some 1%Q; None] /\ exists q, dropout_simple data = Ok q /\ (q == 1 # 2)%Q.
Proof. exact dropout_simple_nan. Qed.
Print Assumptions C17_combined_nan_refuted.

Example C17_example : StronglySorted Z.lt [0; 6; 12; 24; 30; 36] /\
  get_dropout_rate [0; 6; 12; 24; 30; 36] 6 = Ok (Some (1 - 6 / 7)%Q) /\
  perfectly_sampled [0; 6; 12; 18; 24] 6 /\ (5 <= length [0; 6; 12; 18; 24])%nat.
Proof.
  split; [repeat constructor; lia|]. split; [reflexivity|]. split; [|simpl; lia].
  intros k x y Hx Hy. do 5 (destruct k as [|k]; [simpl in *; inversion Hx; inversion Hy; lia|]).
  destruct k; discriminate.
Qed.

Example C17_combined_example :
  map (fun r => (d_rate (r_val r), d_n (r_val r)))
    [mkRow (Some 0) (Some 10) (mkDrop (Some (1 # 2)) 10); mkRow (Some 10) (Some 20) (mkDrop (Some (1 # 4)) 30)]
  = map (fun p => (Some (fst p), snd p)) [((1 # 2)%Q, 10); ((1 # 4)%Q, 30)].
Proof. reflexivity. Qed.

(** ** C18: unified dropout rate of a group. *)

Theorem C18_two_meters_partial : forall P k a b x y,
  proper_periods P -> same_periods P a -> same_periods P b ->
  rate_at a k = Some x -> rate_at b k = Some y ->
  exists d z, dropout_unify_all [b] a = Ok d /\ rate_at d k = Some z /\ (z == mean [x; y])%Q.
Proof. exact dropout_unify_two. Qed.
Print Assumptions C18_two_meters_partial.

(** For n meters in all: 2^(n-1) * result = r0 + r1 + 2 r2 + 4 r3 + ... *)
Theorem C18_weights : forall P k, proper_periods P -> forall l first r0 rs,
  same_periods P first -> Forall (same_periods P) l ->
  rate_at first k = Some r0 -> Forall2 (fun t r => rate_at t k = Some r) l rs ->
  exists d z, dropout_unify_all l first = Ok d /\ same_periods P d /\ rate_at d k = Some z /\
    (inject_Z (2 ^ Z.of_nat (length l)) * z == r0 + doubling 1 rs)%Q.
Proof. exact dropout_unify_all_formula. Qed.
Print Assumptions C18_weights.

Theorem C18_between : forall P k lo hi l first r0 rs, proper_periods P ->
  same_periods P first -> Forall (same_periods P) l ->
  rate_at first k = Some r0 -> Forall2 (fun t r => rate_at t k = Some r) l rs ->
  Forall (fun x => lo <= x <= hi)%Q (r0 :: rs) ->
  exists d z, dropout_unify_all l first = Ok d /\ rate_at d k = Some z /\ (lo <= z <= hi)%Q.
Proof. exact dropout_unify_all_between. Qed.
Print Assumptions C18_between.

(** With three meters the result is neither the mean nor independent of the
    order of the meters. *)
Theorem C18_mean_refuted : exists a b c d z,
  proper_periods [(Some 0, Some 10)] /\ Forall (same_periods [(Some 0, Some 10)]) [a; b; c] /\
  rate_at a 0 = Some 0%Q /\ rate_at b 0 = Some 0%Q /\ rate_at c 0 = Some 1%Q /\
  dropout_unify_all [b; c] a = Ok d /\ rate_at d 0 = Some z /\ ~ (z == mean [0; 0; 1])%Q /\
  (exists d' z', dropout_unify_all [b; a] c = Ok d' /\ rate_at d' 0 = Some z' /\ ~ (z == z')%Q).
Proof. exact dropout_unify_three. Qed.
Print Assumptions C18_mean_refuted.

Example C18_example : exists a b,
  proper_periods [(Some 0, Some 10); (Some 10, Some 20)] /\
  same_periods [(Some 0, Some 10); (Some 10, Some 20)] a /\
  same_periods [(Some 0, Some 10); (Some 10, Some 20)] b /\
  rate_at a 1 = Some (1 # 2)%Q /\ rate_at b 1 = Some (1 # 4)%Q.
Proof.
  exists [mkRow (Some 0) (Some 10) (mkDrop None 3); mkRow (Some 10) (Some 20) (mkDrop (Some (1 # 2)) 9)],
         [mkRow (Some 0) (Some 10) (mkDrop (Some 0%Q) 8); mkRow (Some 10) (Some 20) (mkDrop (Some (1 # 4)) 9)].
  split; [split; [repeat constructor; simpl; intuition discriminate|repeat constructor; discriminate]|].
  repeat split.
Qed.

(** ** C19: Results never hold overlapping time frames. *)

Theorem C19_append : forall A (data : table A) t v,
  Forall row_ordered data -> rows_disjoint data -> usable t ->
  (exists d, results_append data t v = Ok d /\ Permutation d (row_of (t, v) :: data) /\
     sorted_by_start d /\ rows_disjoint d /\ Forall row_ordered d /\
     forall r i, In r data -> ~ (row_covers r i /\ inTF t i))
  \/ (results_append data t v = Err ValueError /\
      exists r i, In r data /\ row_covers r i /\ inTF t i).
Proof. exact @append_outcome. Qed.
Print Assumptions C19_append.

Theorem C19_histories_partial : forall A (h : list (op A)),
  appends_usable h -> no_failed_update [] h ->
  rows_disjoint (run [] h) /\ sorted_by_start (run [] h) /\ Forall row_ordered (run [] h) /\
  Permutation (run [] h) (accepted [] h).
Proof. exact @history_from_empty. Qed.
Print Assumptions C19_histories_partial.

Theorem C19_empty_frame_refuted : exists (data : table Z) t d,
  rows_disjoint data /\ sorted_by_start data /\ tf_empty t = true /\ canonical t /\
  results_append data t 7 = Ok d /\ ~ rows_disjoint d.
Proof. exact empty_append_breaks. Qed.
Print Assumptions C19_empty_frame_refuted.

Example C19_example : exists a b c,
  mk (Some 10) (Some 20) = Ok a /\ mk (Some 0) (Some 10) = Ok b /\ mk (Some 15) (Some 25) = Ok c /\
  let h := [OpAppend a 1; OpAppend b 2; OpAppend c 3; OpUpdate [mkRow (Some 30) None 4]] in
  appends_usable h /\ no_failed_update [] h /\
  run [] h = [mkRow (Some 0) (Some 10) 2; mkRow (Some 10) (Some 20) 1; mkRow (Some 30) None 4].
Proof.
  do 3 eexists. split; [reflexivity|]. split; [reflexivity|]. split; [reflexivity|].
  split; [|split; [repeat split|reflexivity]].
  intros t v [H|[H|[H|[H|[]]]]]; inversion H; subst; split; try reflexivity;
  intros s e Hs He; inversion Hs; inversion He; lia.
Qed.

(** ** C20: the order of appends does not matter. *)

Theorem C20_append_order : forall A (l l' : list (tf * A)),
  Forall (fun p => usable (fst p)) l -> no_overlap (map fst l) -> Permutation l l' ->
  exists d, append_all l [] = Ok d /\ append_all l' [] = Ok d /\ Permutation d (map row_of l).
Proof. exact @append_order_independent. Qed.
Print Assumptions C20_append_order.

Example C20_example : exists a b,
  mk (Some 10) (Some 20) = Ok a /\ mk (Some 0) (Some 10) = Ok b /\
  Forall (fun p => usable (fst p)) [(a, 1); (b, 2)] /\ no_overlap (map fst [(a, 1); (b, 2)]) /\
  append_all [(a, 1); (b, 2)] [] = Ok [mkRow (Some 0) (Some 10) 2; mkRow (Some 10) (Some 20) 1].
Proof.
  do 2 eexists. split; [reflexivity|]. split; [reflexivity|].
  split; [repeat constructor; intros s e Hs He; inversion Hs; inversion He; lia|].
  split; [|reflexivity].
  intros j k x y i Hj Hk (_ & Hx1 & Hx2) (_ & Hy1 & Hy2).
  destruct j as [|[|[|j]]]; destruct k as [|[|[|k]]]; simpl in Hj, Hk; try discriminate; auto;
  inversion Hj; inversion Hk; subst;
  specialize (Hx1 _ eq_refl); specialize (Hx2 _ eq_refl);
  specialize (Hy1 _ eq_refl); specialize (Hy2 _ eq_refl); lia.
Qed.

(** ** C21: update and unify. *)

(** What update does: it always absorbs all rows, and raises exactly when the
    union overlaps (or holds an inverted row). *)
Theorem C21_update_partial : forall A (data new : table A), new <> [] ->
  exists d, Permutation d (data ++ new) /\ sorted_by_start d /\
  ((results_update data new = (d, None) /\ rows_disjoint d /\ Forall row_ordered d)
   \/ (results_update data new = (d, Some ValueError) /\
       (~ rows_disjoint (data ++ new) \/ ~ Forall row_ordered (data ++ new)))).
Proof. exact @update_outcome. Qed.
Print Assumptions C21_update_partial.

Theorem C21_update_atomic_refuted : exists (data new d : table Z) e,
  rows_disjoint data /\ results_update data new = (d, Some e) /\ d <> data /\ ~ rows_disjoint d.
Proof. exact update_not_atomic. Qed.
Print Assumptions C21_update_atomic_refuted.

Theorem C21_unify_adds : forall data other, unique_index other ->
  (forall r, In r data -> exists q, In q other /\ same_period r q) ->
  missing_col en_active data other = false -> missing_col en_reactive data other = false ->
  missing_col en_apparent data other = false ->
  exists d, energy_unify data other = Ok d /\
    Forall2 (fun r x => period x = period r /\ exists q, In q other /\ same_period r q /\
      (has_col en_active data = true -> en_active (r_val x) = oadd (en_active (r_val r)) (en_active (r_val q))) /\
      (has_col en_reactive data = true -> en_reactive (r_val x) = oadd (en_reactive (r_val r)) (en_reactive (r_val q))) /\
      (has_col en_apparent data = true -> en_apparent (r_val x) = oadd (en_apparent (r_val r)) (en_apparent (r_val q)))) data d.
Proof. exact energy_unify_spec. Qed.
Print Assumptions C21_unify_adds.

Theorem C21_unify_rejects : forall data other r, unique_index other -> In r data ->
  (forall q, In q other -> ~ same_period r q) ->
  energy_unify data other = Err KeyError \/ energy_unify data other = Err RuntimeError.
Proof. exact energy_unify_rejects. Qed.
Print Assumptions C21_unify_rejects.

(** Unifying all the meters of a group gives the cell-by-cell sums, whatever
    the order of the meters. *)
Theorem C21_unify_group : forall P a r p first l first' l',
  proper_periods P -> Forall (same_periods P) (first :: l) -> Forall (uniform a r p) (first :: l) ->
  Permutation (first :: l) (first' :: l') ->
  exists d, unify_all l first = Ok d /\ unify_all l' first' = Ok d /\
    same_periods P d /\ uniform a r p d /\
    forall f k, f = en_active \/ f = en_reactive \/ f = en_apparent ->
      cell f d k = sumZ (map (fun t => cell f t k) (first :: l)).
Proof. exact unify_order_independent. Qed.
Print Assumptions C21_unify_group.

(** Results of the other meter for further periods are dropped silently. *)
Theorem C21_unify_extra_rows_refuted : exists data other d q,
  unique_index data /\ unique_index other /\ energy_unify data other = Ok d /\
  In q other /\ (forall r, In r data -> ~ same_period r q) /\
  energy_combined d = (3, 0, 0) /\ en_active (r_val q) = Some 100.
Proof. exact unify_ignores_extra. Qed.
Print Assumptions C21_unify_extra_rows_refuted.

Example C21_example :
  let P := [(Some 0, Some 10); (Some 10, Some 20)] in
  let t x y := [mkRow (Some 0) (Some 10) (mkEn (Some x) None (Some 1)); mkRow (Some 10) (Some 20) (mkEn (Some y) None (Some 2))] in
  proper_periods P /\ Forall (same_periods P) [t 1 2; t 3 4; t 5 6] /\
  Forall (uniform true false true) [t 1 2; t 3 4; t 5 6] /\
  unify_all [t 3 4; t 5 6] (t 1 2) =
    Ok [mkRow (Some 0) (Some 10) (mkEn (Some 9) None (Some 3)); mkRow (Some 10) (Some 20) (mkEn (Some 12) None (Some 6))].
Proof.
  cbv zeta. split; [split; [repeat constructor; simpl; intuition discriminate|repeat constructor; discriminate]|].
  split; [repeat constructor|]. split; [repeat constructor|]. reflexivity.
Qed.
