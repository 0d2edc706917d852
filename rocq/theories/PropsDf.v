(** Property C57: the table of all meters of a group. *)
From Coq Require Import QArith Permutation Lia.
From Verif Require Import Base DfModel DfSpec DfProofs.
Open Scope nat_scope.

(** The column of a meter holds its readings, each once, if after a round
    without readings there are none left. *)
Theorem C57_readings : forall union ms i cs, outer union -> well_formed ms ->
  (forall j k, blank ms j -> j <= k -> blank ms k) -> In (i, cs) ms ->
  Permutation (in_column i (snd (dataframe_of_meters union ms))) (concat cs).
Proof. exact all_readings. Qed.
Print Assumptions C57_readings.

(** In general: the readings before the first round without readings. *)
Theorem C57_until_blank_partial : forall union ms k i cs, outer union -> well_formed ms ->
  blank ms k -> (forall j, j < k -> ~ blank ms j) -> In (i, cs) ms ->
  Permutation (in_column i (snd (dataframe_of_meters union ms))) (concat (firstn k cs)).
Proof. exact until_blank. Qed.
Print Assumptions C57_until_blank_partial.

Theorem C57_rows : forall union ms t, outer union -> In t (times (dataframe_of_meters union ms)) ->
  exists m c v, In m ms /\ In c (snd m) /\ In (t, v) c.
Proof. exact row_has_reading. Qed.
Print Assumptions C57_rows.

Theorem C57_index : forall union ms b, outer union -> aligned b ms -> NoDup (times (dataframe_of_meters union ms)).
Proof. exact index_unique. Qed.
Print Assumptions C57_index.

(** Two meters, three rounds. *)
Definition ex_union (l : list (list Z)) : list Z := nodup Z.eq_dec (concat l).
Lemma ex_union_outer : outer ex_union.
Proof.
  intros l. split; [apply NoDup_nodup|]. intros t. unfold ex_union. rewrite nodup_In, in_concat. reflexivity.
Qed.
Definition ex_meters : list meter :=
  [(1, [[(0%Z, 5%Q); (6%Z, 5%Q)]; [(10%Z, 5%Q)]]); (2, [[(0%Z, 1%Q); (3%Z, 2%Q)]; []; [(20%Z, 3%Q)]])].
Example C57_example : outer ex_union /\ well_formed ex_meters /\
  (forall j k, blank ex_meters j -> j <= k -> blank ex_meters k) /\ aligned (fun k => (10 * Z.of_nat k)%Z) ex_meters /\
  dataframe_of_meters ex_union ex_meters =
    ([1; 2], [(6%Z, [(1, Some 5%Q); (2, None)]); (0%Z, [(1, Some 5%Q); (2, Some 1%Q)]); (3%Z, [(1, None); (2, Some 2%Q)]);
              (10%Z, [(1, Some 5%Q); (2, None)]); (20%Z, [(1, None); (2, Some 3%Q)])]).
Proof.
  split; [exact ex_union_outer|]. split; [|split; [|split; [|reflexivity]]].
  - split; [repeat constructor; cbn; intuition discriminate|].
    intros m c [<-|[<-|[]]]; cbn [snd ex_meters]; intros I; repeat destruct I as [<-|I]; try destruct I; repeat constructor; cbn; intuition discriminate.
  - intros j k B L. assert (j >= 3) as J.
    { destruct j as [|[|[|j]]]; [| | |lia].
      - discriminate (B (1, _) _ (or_introl eq_refl) eq_refl).
      - discriminate (B (1, _) _ (or_introl eq_refl) eq_refl).
      - discriminate (B (2, _) _ (or_intror (or_introl eq_refl)) eq_refl). }
    intros m c I E. assert (K : k < length (snd m)) by (apply nth_error_Some; congruence).
    destruct I as [<-|[<-|[]]]; cbn in K; lia.
  - split; [intros k; lia|]. intros m k c t v I E It. assert (K : k < length (snd m)) by (apply nth_error_Some; congruence).
    destruct I as [<-|[<-|[]]]; cbn in K; destruct k as [|[|[|k]]]; try lia; cbn in E; injection E as <-;
    repeat (destruct It as [It|It]; [injection It as <- _; cbn; lia|]); destruct It.
Qed.

(** A section in which no meter has data ends the table: what follows is lost. *)
Theorem C57_blank_refuted : exists ms i cs, well_formed ms /\ In (i, cs) ms /\ concat cs <> [] /\
  forall union, outer union -> snd (dataframe_of_meters union ms) = [].
Proof.
  exists [(1, [[]; [(10%Z, 5%Q)]]); (2, [[]; [(10%Z, 7%Q)]])], 1, [[]; [(10%Z, 5%Q)]].
  split; [|split; [left; reflexivity|split; [discriminate|]]].
  - split; [repeat constructor; cbn; intuition discriminate|].
    intros m c [<-|[<-|[]]]; cbn [snd]; intros I; repeat destruct I as [<-|I]; try destruct I; repeat constructor; cbn; intuition discriminate.
  - intros union O. reflexivity.
Qed.
Print Assumptions C57_blank_refuted.

(** Chunks of different lengths (the same readings, one meter with one chunk and
    one with two): the same instant is in two rows. *)
Theorem C57_misaligned_refuted : exists ms : list meter, well_formed ms /\
  (forall i cs, In (i, cs) ms -> map fst (concat cs) = [0%Z; 10%Z]) /\
  ~ NoDup (times (dataframe_of_meters ex_union ms)).
Proof.
  exists [(1, [[(0%Z, 5%Q); (10%Z, 5%Q)]]); (2, [[(0%Z, 1%Q)]; [(10%Z, 1%Q)]])]. split; [|split].
  - split; [repeat constructor; cbn; intuition discriminate|].
    intros m c [<-|[<-|[]]]; cbn [snd]; intros I; repeat destruct I as [<-|I]; try destruct I; repeat constructor; cbn; intuition discriminate.
  - intros i cs [E|[E|[]]]; injection E as <- <-; reflexivity.
  - intros N. vm_compute in N. repeat (inversion N as [|? ? N1 N2]; subst; clear N; rename N2 into N; try (apply N1; cbn; tauto)).
Qed.
Print Assumptions C57_misaligned_refuted.
