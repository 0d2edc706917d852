(** C75: loads that share a list of preprocessing nodes or a dictionary of options. *)
From Coq Require Import Lia.
From Verif Require Import Base PrepModel PrepSpec PrepProofs4.
Import List. Open Scope Z_scope.

(** A load whose list, nodes and options no other call uses delivers, however its
    [next] calls interleave with those other calls (before and after), its own chunks
    passed through its own nodes and resampled as it asked, then StopIteration. *)
Theorem C75_own_partial : forall (C : Type) user resample series ls n ds pre (a : args C) post ns cs st xs,
  valid_program ls n ds (pre ++ Load a :: post) -> own_nodes ls a ns -> NoDup ns -> a_src a = Ok cs -> (wants a = true -> 0 < own_period a) ->
  (forall o b, In o (pre ++ post) -> op_args o = Some b -> apart ls a b /\ opts_apart ds a b) ->
  run user resample series (initial ls n ds) (pre ++ Load a :: post) = (st, xs) ->
  exists xs1 g ys lim, xs = xs1 ++ Made g :: ys /\ length xs1 = length pre /\ (wants a = true -> own_limit ds a lim) /\
    yields (map (asked user resample a ns lim) cs) (answers_of g post ys).
Proof. intros C. exact own_ok. Qed.
Print Assumptions C75_own_partial.

(** Calls of power_series may share a list and its nodes with each other, as long as no
    other one resamples through this list and no plain load uses the nodes: their nodes
    are connected and used in one step. *)
Theorem C75_series_partial : forall (C : Type) user resample series ls n ds pre (a : args C) post ns cs st xs,
  valid_program ls n ds (pre ++ Series a :: post) -> own_nodes ls a ns -> NoDup ns -> a_src a = Ok cs -> (wants a = true -> 0 < own_period a) ->
  (forall o b, In o (pre ++ post) -> op_args o = Some b -> opts_apart ds a b) ->
  (forall b l, In (Series b) (pre ++ post) -> a_prep a = Some l -> a_prep b = Some l -> wants b = false) ->
  (forall b c, In (Load b) (pre ++ post) -> In (Series c) (pre ++ Series a :: post) -> apart ls c b) ->
  run user resample series (initial ls n ds) (pre ++ Series a :: post) = (st, xs) ->
  exists xs1 g ys lim, xs = xs1 ++ Made g :: ys /\ length xs1 = length pre /\ (wants a = true -> own_limit ds a lim) /\
    yields (map (fun c => series (asked user resample a ns lim c)) cs) (answers_of g post ys).
Proof. intros C. exact series_ok. Qed.
Print Assumptions C75_series_partial.

(** A chunk that records what was done to it. *)
Inductive work := Node (k : nat) | Sampled (p l : Z) | Summed.
Definition chunk := (nat * list work)%type.
Definition ex_user (k : nat) (c : chunk) : chunk := (fst c, snd c ++ [Node k]).
Definition ex_resample (p l : Z) (c : chunk) : chunk := (fst c, snd c ++ [Sampled p l]).
Definition ex_series (c : chunk) : chunk := (fst c, snd c ++ [Summed]).
Definition raw (i : nat) : chunk := (i, []).
Definition ex_run := run ex_user ex_resample ex_series.
Definition plain (l : option nat) (cs : list chunk) : args chunk := mkArgs l None None None 6 60 (Ok cs).
Definition sampled (l : option nat) (d : option nat) (p max : Z) (cs : list chunk) : args chunk := mkArgs l (Some p) None d 6 max (Ok cs).

(* three loads at once, with two lists, and options of one of them *)
Definition ex_lists : list (list nat) := [[0; 1]; [2]]%nat.
Definition ex_mine : args chunk := sampled (Some 0%nat) (Some 0%nat) 7 60 [raw 1; raw 2; raw 3].
Definition ex_pre : list (op chunk) := [Load (plain (Some 1%nat) [raw 10]); Pull 0].
Definition ex_post : list (op chunk) := [Series (sampled (Some 1%nat) None 60 60 [raw 20]); Pull 1; Pull 2; Load (sampled None None 60 60 [raw 30]); Pull 1; Pull 3; Pull 0; Pull 1; Pull 1; Pull 1].
Example C75_example_own : valid_program ex_lists 3 [None] (ex_pre ++ Load ex_mine :: ex_post) /\ own_nodes ex_lists ex_mine [0; 1]%nat /\ NoDup [0; 1]%nat /\
  (forall o b, In o (ex_pre ++ ex_post) -> op_args o = Some b -> apart ex_lists ex_mine b /\ opts_apart [None] ex_mine b) /\
  answers_of 1 ex_post (skipn 3 (snd (ex_run (initial ex_lists 3 [None]) (ex_pre ++ Load ex_mine :: ex_post)))) =
    [Got (1%nat, [Node 0; Node 1; Sampled 7 9]); Got (2%nat, [Node 0; Node 1; Sampled 7 9]); Got (3%nat, [Node 0; Node 1; Sampled 7 9]);
     Raised StopIteration; Raised StopIteration] /\
  own_limit [None] ex_mine 9.
Proof.
  split.
  { split; [repeat constructor; lia|]. repeat (constructor; [intros a Ha; cbn in Ha; try discriminate; injection Ha as <-; split; cbn; intros k Hk; try discriminate; injection Hk as <-; cbn; lia|]). constructor. }
  split; [reflexivity|]. split; [repeat constructor; cbn; intuition discriminate|]. split.
  { intros o b Ho Hb. cbn in Ho.
    repeat (destruct Ho as [<-|Ho]; [cbn in Hb; try discriminate; injection Hb as <-; (split;
      [intros l l' ns ms [= <-] H1 [= <-] H2; try discriminate; injection H1 as <-; injection H2 as <-; (split; [discriminate|intros k H3 H4; cbn in H3, H4; intuition lia])
      |intros d _ _ _ H; discriminate])|]).
    destruct Ho. }
  split; [vm_compute; reflexivity|]. unfold own_limit, ex_mine. cbn. unfold is_ceil. cbn. lia.
Qed.
(* two power_series with one list: fine, also when they run at the same time *)
Definition ex_both : list (op chunk) := [Series (plain (Some 0%nat) [raw 10; raw 11]); Pull 0; Pull 1; Pull 0; Pull 1; Pull 1; Pull 0].
Example C75_example_series : valid_program [[0]]%nat 1 [] ([] ++ Series (plain (Some 0%nat) [raw 1; raw 2]) :: ex_both) /\
  (forall b l, In (Series b) ([] ++ ex_both) -> a_prep (plain (Some 0%nat) [raw 1; raw 2]) = Some l -> a_prep b = Some l -> wants b = false) /\
  snd (ex_run (initial [[0]]%nat 1 []) ([] ++ Series (plain (Some 0%nat) [raw 1; raw 2]) :: ex_both)) =
    [Made 0; Made 1; Got (1%nat, [Node 0; Summed]); Got (10%nat, [Node 0; Summed]); Got (2%nat, [Node 0; Summed]); Got (11%nat, [Node 0; Summed]);
     Raised StopIteration; Raised StopIteration].
Proof.
  split; [|split; [|vm_compute; reflexivity]].
  - split; [repeat constructor; lia|]. repeat (constructor; [intros a Ha; cbn in Ha; try discriminate; injection Ha as <-; split; cbn; intros k Hk; try discriminate; injection Hk as <-; cbn; lia|]). constructor.
  - intros b l Hb _ _. cbn in Hb. repeat (destruct Hb as [Hb|Hb]; [try discriminate; injection Hb as <-; reflexivity|]). destruct Hb.
Qed.

(** With a shared list, two loads before the first [next]: the first generator delivers
    the data of the second, which the second one then lacks; its own data are lost.  So
    the hypothesis on the lists cannot be dropped. *)
Theorem C75_shared_refuted : forall (C : Type) (user : nat -> C -> C) resample series (c d e : C) p m,
  let mine := mkArgs (Some 0%nat) None None None p m (Ok [c]) in
  let other := mkArgs (Some 0%nat) None None None p m (Ok [d; e]) in
  snd (run user resample series (initial [[0%nat]] 1 []) [Load mine; Load other; Pull 0; Pull 1; Pull 1; Pull 0]) =
    [Made 0; Made 1; Got (user 0%nat d); Got (user 0%nat e); Raised StopIteration; Raised StopIteration].
Proof. reflexivity. Qed.
Print Assumptions C75_shared_refuted.

(** Two loads one after the other with the same list: the second one is resampled twice,
    first with the period of the first; for each further load once more. *)
Theorem C75_again_refuted : forall (C : Type) (user : nat -> C -> C) resample series (c d : C),
  let mine := mkArgs (Some 0%nat) (Some 6) None None 6 60 (Ok [c]) in
  let again := mkArgs (Some 0%nat) (Some 60) None None 6 60 (Ok [d]) in
  snd (run user resample series (initial [[]] 0 []) [Load mine; Pull 0; Pull 0; Load again; Pull 1]) =
    [Made 0; Got (resample 6 10 c); Raised StopIteration; Made 1; Got (resample 60 1 (resample 6 10 d))].
Proof. reflexivity. Qed.
Print Assumptions C75_again_refuted.

(** A dictionary of options used for two meters: the limit of the first stays. *)
Theorem C75_limit_refuted : forall (C : Type) (user : nat -> C -> C) resample series (c d : C),
  let mine := mkArgs None (Some 6) None (Some 0%nat) 6 6 (Ok [c]) in
  let other := mkArgs None (Some 6) None (Some 0%nat) 6 600 (Ok [d]) in
  own_limit [None] other 100 /\
  snd (run user resample series (initial [] 0 [None]) [Load mine; Pull 0; Load other; Pull 1]) =
    [Made 0; Got (resample 6 1 c); Made 1; Got (resample 6 1 d)].
Proof. intros. split; [unfold own_limit, is_ceil; cbn; lia|reflexivity]. Qed.
Print Assumptions C75_limit_refuted.

(** A load that raises still leaves its resampling in the list: a later load that asks
    for none is resampled. *)
Theorem C75_failed_refuted : forall (C : Type) (user : nat -> C -> C) resample series (d : C),
  let mine := mkArgs (Some 0%nat) (Some 6) None None 6 60 (Err MeasurementError) in
  let other := mkArgs (Some 0%nat) None None None 6 60 (Ok [d]) in
  wants other = false /\
  snd (run user resample series (initial [[]] 0 []) [Load mine; Load other; Pull 0]) =
    [Raised MeasurementError; Made 0; Got (resample 6 10 d)].
Proof. split; reflexivity. Qed.
Print Assumptions C75_failed_refuted.

(** A list with the same node twice makes a circle: RecursionError at the first [next]. *)
Theorem C75_twice_refuted : forall (C : Type) (user : nat -> C -> C) resample series (c : C) p m,
  snd (run user resample series (initial [[0; 0]%nat] 1 []) [Load (mkArgs (Some 0%nat) None None None p m (Ok [c])); Pull 0]) =
    [Made 0; Raised RuntimeError].
Proof. reflexivity. Qed.
Print Assumptions C75_twice_refuted.

(** The bound on the number of steps is not what makes this error: no number of steps
    reaches the source. *)
Theorem C75_circle : forall nds r, chain (S (length nds)) nds r = Err RuntimeError -> forall steps, chain steps nds r = Err RuntimeError.
Proof. exact chain_enough. Qed.
Print Assumptions C75_circle.
Example C75_example_circle : chain 3 [(Some (RNode 1), User 0); (Some (RNode 0), User 1)] (RNode 0) = Err RuntimeError /\
  chain 3 [(Some (RNode 1), User 0); (Some (RSource 5), User 1)] (RNode 0) = Ok ([User 1; User 0], 5%nat).
Proof. split; reflexivity. Qed.
