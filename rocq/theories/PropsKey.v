(** C28: keys and paths. *)
From Verif Require Import Base KeyModel KeySpec KeyProofs.
From Coq Require Import Ascii String.
Import List.
Open Scope list_scope.

(** [Key(repr(k))] has the building and meter of [k]. *)
Theorem C28_round_trip : forall py_int k, reads_numerals py_int -> valid k ->
  exists s k', key_repr k = Ok s /\ key_of_string py_int s = Ok k' /\ k_building k' = k_building k /\ k_meter k' = k_meter k.
Proof.
  intros py_int k H1 H2. destruct (round_trip py_int k H1 H2) as (s & E1 & E2). exists s. eexists. split; [exact E1|]. split; [exact E2|]. split; reflexivity.
Qed.
Print Assumptions C28_round_trip.

(** Keys with different building or meter print differently. *)
Theorem C28_injective : forall k k' s, key_repr k = Ok s -> key_repr k' = Ok s -> k_building k = k_building k' /\ k_meter k = k_meter k'.
Proof. exact repr_injective. Qed.
Print Assumptions C28_injective.

(** Every string accepted as a key gives a valid, printable key. *)
Theorem C28_accepted : forall py_int s k, key_of_string py_int s = Ok k -> valid k /\ exists s', key_repr k = Ok s'.
Proof. exact parsed_valid. Qed.
Print Assumptions C28_accepted.

(** The utility is not kept: printing and reading back a gas meter gives an
    electricity meter. *)
Theorem C28_utility_refuted : forall py_int, reads_numerals py_int ->
  exists s k s' k', key_of_string py_int s = Ok k /\ key_repr k = Ok s' /\ key_of_string py_int s' = Ok k' /\ k_utility k <> k_utility k'.
Proof.
  intros py_int H. exists (lit "/building1/gas/meter2"), (mkKey 1 (Some 2%Z) (Some (lit "gas"))), (lit "/building1/elec/meter2"), (mkKey 1 (Some 2%Z) (Some (lit "elec"))).
  pose proof (H 1%Z ltac:(lia)) as H1. pose proof (H 2%Z ltac:(lia)) as H2. change (decimal 1) with (lit "1") in H1. change (decimal 2) with (lit "2") in H2.
  split; [|split; [reflexivity|split; [|discriminate]]].
  - unfold key_of_string. change (split_path (strip (lit "/building1/gas/meter2"))) with [lit "building1"; lit "gas"; lit "meter2"]. cbn [hd].
    change (remove_all (lit "building") (lit "building1")) with (lit "1"). change (remove_all (lit "meter") (lit "meter2")) with (lit "2"). rewrite H1, H2. reflexivity.
  - unfold key_of_string. change (split_path (strip (lit "/building1/elec/meter2"))) with [lit "building1"; lit "elec"; lit "meter2"]. cbn [hd].
    change (remove_all (lit "building") (lit "building1")) with (lit "1"). change (remove_all (lit "meter") (lit "meter2")) with (lit "2"). rewrite H1, H2. reflexivity.
Qed.
Print Assumptions C28_utility_refuted.

(** Different strings are read as the same key: a path below a meter is read as
    the building, and "building" may occur inside the building name. *)
Theorem C28_lenient_refuted : forall py_int, reads_numerals py_int ->
  (exists k, key_of_string py_int (lit "building1/elec/meter2/cache") = Ok k /\ k_building k = 1%Z /\ k_meter k = None) /\
  (exists k, key_of_string py_int (lit "building1building2") = Ok k /\ k_building k = 12%Z).
Proof.
  intros py_int H. pose proof (H 1%Z ltac:(lia)) as H1. pose proof (H 12%Z ltac:(lia)) as H2. change (decimal 1) with (lit "1") in H1. change (decimal 12) with (lit "12") in H2. split.
  - eexists. unfold key_of_string. change (split_path (strip (lit "building1/elec/meter2/cache"))) with [lit "building1"; lit "elec"; lit "meter2"; lit "cache"]. cbn [hd].
    change (remove_all (lit "building") (lit "building1")) with (lit "1"). rewrite H1. split; [reflexivity|]. split; reflexivity.
  - eexists. unfold key_of_string. change (split_path (strip (lit "building1building2"))) with [lit "building1building2"]. cbn [hd].
    change (remove_all (lit "building") (lit "building1building2")) with (lit "12"). rewrite H2. split; reflexivity.
Qed.
Print Assumptions C28_lenient_refuted.

(** Negative and zero numbers, missing building numbers and other names raise. *)
Theorem C28_rejects : forall py_int b m,
  (forall k, key_of_numbers (Some b) m = Ok k -> k = mkKey b m None /\ valid k) /\
  (key_of_numbers (Some b) m = Err AssertionError <-> ~ valid (mkKey b m None)) /\
  key_of_numbers None m = Err AssertionError /\ key_of_string py_int (lit "house1/elec/meter1") = Err AssertionError.
Proof.
  intros py_int b m. split; [|split; [|split; reflexivity]].
  - intros k H. apply check_ok in H. destruct H as [-> H]. auto.
  - cbn [key_of_numbers]. split; [intros H; apply check_err in H; tauto|]. intros H. destruct (check (mkKey b m None)) as [k|e] eqn:E; [apply check_ok in E; tauto|]. apply check_err in E. destruct E as [-> _]. reflexivity.
Qed.
Print Assumptions C28_rejects.

Example C28_example : exists py_int, reads_numerals py_int /\ valid (mkKey 12 (Some 305%Z) None) /\ key_repr (mkKey 12 (Some 305%Z) None) = Ok (lit "/building12/elec/meter305").
Proof. destruct reads_numerals_exists as [f Hf]. exists f. split; [exact Hf|]. split; [split; [cbn; lia|cbn; intros m [= <-]; lia]|reflexivity]. Qed.

(** [join_key] keeps the path components of its arguments, in order, whatever
    slashes they carry, and the result is absolute. *)
Theorem C28_join_components : forall args ls, Forall2 path args ls -> path (join_key args) (concat ls) /\ exists r, join_key args = slash :: r.
Proof. exact join_path. Qed.
Print Assumptions C28_join_components.

(** If no argument has two slashes between components, the result is the
    canonical path: one slash before each component, none at the end. *)
Theorem C28_join_canonical : forall args ls, Forall2 tidy args ls -> join_key args = absolute (concat ls).
Proof. exact join_tidy. Qed.
Print Assumptions C28_join_canonical.

(** Joining a canonical path with more arguments continues it. *)
Theorem C28_join_again : forall l args ls, Forall component l -> Forall2 tidy args ls -> join_key (absolute l :: args) = absolute (l ++ concat ls).
Proof. intros l args ls H1 H2. apply (join_tidy (absolute l :: args) (l :: ls)). constructor; [apply absolute_tidy; exact H1|exact H2]. Qed.
Print Assumptions C28_join_again.

(** Double slashes inside an argument stay. *)
Theorem C28_join_double_slash_refuted : exists args a b, join_key args = a ++ slash :: slash :: b.
Proof. exists [lit "a//b"], (lit "/a"), (lit "b"). reflexivity. Qed.
Print Assumptions C28_join_double_slash_refuted.

Example C28_join_example : Forall2 tidy [lit "//building1/elec/"; lit ""; lit "/"; lit "meter3"] [[lit "building1"; lit "elec"]; []; []; [lit "meter3"]] /\
  join_key [lit "//building1/elec/"; lit ""; lit "/"; lit "meter3"] = lit "/building1/elec/meter3" /\ join_key [] = lit "/" /\
  Forall2 path [lit "/a//b"] [[lit "a"; lit "b"]].
Proof.
  assert (C1 : component (lit "building1")) by (split; [discriminate|cbn; intuition discriminate]).
  assert (C2 : component (lit "elec")) by (split; [discriminate|cbn; intuition discriminate]).
  assert (C3 : component (lit "meter3")) by (split; [discriminate|cbn; intuition discriminate]).
  split; [|split; [reflexivity|split; [reflexivity|]]].
  - constructor; [split; [constructor; [exact C1|constructor; [exact C2|constructor]]|exists 2%nat, 1%nat; reflexivity]|].
    constructor; [split; [constructor|exists 0%nat, 0%nat; reflexivity]|]. constructor; [split; [constructor|exists 1%nat, 0%nat; reflexivity]|].
    constructor; [split; [constructor; [exact C3|constructor]|exists 0%nat, 0%nat; reflexivity]|constructor].
  - constructor; [|constructor]. assert (A : component (lit "a")) by (split; [discriminate|cbn; intuition discriminate]). assert (B : component (lit "b")) by (split; [discriminate|cbn; intuition discriminate]).
    apply path_slash. apply (path_cons (lit "a") (lit "/b") [lit "b"]); [exact A|]. apply path_slash. apply path_last. exact B.
Qed.
