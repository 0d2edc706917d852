(** C110: joining the blocks of a GREEND house. *)
From Coq Require Import String Permutation Sorted Lia.
From Verif Require Import Base GHouseModel GHouseSpec GHouseProofs.
Import List. Open Scope list_scope. Open Scope nat_scope.

(** Each column of the blocks is one meter; its table has all times of the house, each once, in order, and no
    value that is not a reading of that column at that time.  If no time occurs twice, it has every reading. *)
Theorem C110_tables_partial : forall A srt (fs : list (frame A)), fs <> [] -> Forall rectangular fs -> sorts srt fs ->
  exists cols ts, house_tables srt fs = Ok ts /\ columns_of fs cols /\ List.length ts = List.length cols /\
  forall i c, nth_error cols i = Some c -> exists rows, nth_error ts i = Some (S i, rows) /\
    StronglySorted Z.lt (map fst rows) /\ (forall t, In t (map fst rows) <-> In t (times fs)) /\
    (forall t v, In (t, Some v) rows -> exists f, In f fs /\ has_value f c t (Some v)) /\
    (NoDup (times fs) -> forall f t v, In f fs -> has_value f c t v -> In (t, v) rows).
Proof. intros A srt fs. apply tables_ok. Qed.
Print Assumptions C110_tables_partial.
Definition ex_a : frame Z := mkFrame ["a"; "b"]%string [(1, [Some 10; Some 20]); (2, [Some 11; None])]%Z.
Definition ex_b : frame Z := mkFrame ["b"; "c"]%string [(3, [Some 22; Some 30]); (4, [Some 23; Some 31])]%Z.
Example C110_tables_example : [ex_a; ex_b] <> [] /\ Forall rectangular [ex_a; ex_b] /\ sorts (fun l => l) [ex_a; ex_b] /\ NoDup (times [ex_a; ex_b]) /\
  house_tables (fun l => l) [ex_a; ex_b] =
    Ok [(1, [(1, Some 10); (2, Some 11); (3, None); (4, None)]%Z); (2, [(1, Some 20); (2, None); (3, Some 22); (4, Some 23)]%Z); (3, [(1, None); (2, None); (3, Some 30); (4, Some 31)]%Z)].
Proof.
  split; [discriminate|]. split; [|split; [|split; [|vm_compute; reflexivity]]].
  - repeat (apply Forall_cons || apply Forall_nil); (split; [repeat constructor; cbn; intuition discriminate|intros r [<-|[<-|[]]]; reflexivity]).
  - intros f E. vm_compute in E. injection E as <-. split; [apply Permutation_refl|]. cbn. repeat (constructor; try lia).
  - cbn. repeat constructor; cbn; intuition discriminate.
Qed.

(** A house without blocks is an error. *)
Theorem C110_empty : forall A (srt : list (Z * list (option A)) -> list (Z * list (option A))) fs, house_tables srt fs = Err ValueError <-> fs = [].
Proof. intros A srt fs. split; [|intros ->; reflexivity]. destruct fs; [reflexivity|]. rewrite tables_eq by discriminate. discriminate. Qed.
Print Assumptions C110_empty.

(** It is false that readings of the same time in two blocks are joined: if no block has both columns, at no
    time do both meters have a value, so that one of the two readings is lost. *)
Theorem C110_lost_refuted : forall A srt (fs : list (frame A)) ts i j c d rows rows' t v w, fs <> [] -> sorts srt fs -> house_tables srt fs = Ok ts ->
  nth_error (all_columns fs) i = Some c -> nth_error (all_columns fs) j = Some d -> (forall f, In f fs -> ~ (In c (f_cols f) /\ In d (f_cols f))) ->
  nth_error ts i = Some (S i, rows) -> nth_error ts j = Some (S j, rows') -> In (t, Some v) rows -> ~ In (t, Some w) rows'.
Proof. intros A srt fs ts i j c d rows rows' t v w. apply not_joined. Qed.
Print Assumptions C110_lost_refuted.
Definition ex_c : frame Z := mkFrame ["c"]%string [(2, [Some 30])]%Z.
Example C110_lost_example : sorts (fun l => l) [ex_a; ex_c] /\ (forall f, In f [ex_a; ex_c] -> ~ (In "a"%string (f_cols f) /\ In "c"%string (f_cols f))) /\ has_value ex_c "c" 2%Z (Some 30%Z) /\
  house_tables (fun l => l) [ex_a; ex_c] = Ok [(1, [(1, Some 10); (2, Some 11)]%Z); (2, [(1, Some 20); (2, None)]%Z); (3, [(1, None); (2, None)]%Z)].
Proof.
  split; [|split; [|split; [|vm_compute; reflexivity]]].
  - intros f E. vm_compute in E. injection E as <-. split; [apply Permutation_refl|]. cbn. repeat (constructor; try lia).
  - intros f [<-|[<-|[]]]; cbn; intuition discriminate.
  - exists (2, [Some 30])%Z, 0. repeat split. left. reflexivity.
Qed.

(** The number of a meter depends on the order of the blocks; without use_mp that is the order in which the
    directory is listed. *)
Theorem C110_order_refuted : exists (f g : frame Z) srt ts ts', rectangular f /\ rectangular g /\ NoDup (times [f; g]) /\ sorts srt [f; g] /\ sorts srt [g; f] /\
  house_tables srt [f; g] = Ok ts /\ house_tables srt [g; f] = Ok ts' /\
  nth_error ts 0 = Some (1, [(1, Some 5); (2, None)]%Z) /\ nth_error ts' 0 = Some (1, [(1, None); (2, Some 7)]%Z).
Proof.
  exists (mkFrame ["a"]%string [(1, [Some 5])]%Z), (mkFrame ["b"]%string [(2, [Some 7])]%Z), (fun l => match l with (2%Z, _) :: _ => rev l | _ => l end). eexists. eexists.
  split; [split; [repeat constructor; cbn; tauto|intros r [<-|[]]; reflexivity]|]. split; [split; [repeat constructor; cbn; tauto|intros r [<-|[]]; reflexivity]|]. split; [cbn; repeat constructor; cbn; intuition discriminate|].
  split; [intros f E; vm_compute in E; injection E as <-; split; [apply Permutation_refl|cbn; repeat (constructor; try lia)]|].
  split; [intros f E; vm_compute in E; injection E as <-; split; [apply perm_swap|cbn; repeat (constructor; try lia)]|].
  split; [vm_compute; reflexivity|]. split; [vm_compute; reflexivity|]. split; reflexivity.
Qed.
Print Assumptions C110_order_refuted.
