(** C77: the course of an experiment of the API. *)
From Coq Require Import String QArith Lia.
From Verif Require Import Base HartModel HartRunModel TrialModel TrialSpec TrialProofs.
Import List. Open Scope list_scope. Open Scope nat_scope.

(** An experiment that ends trains each of its classifiers by exactly the calls that the
    configuration asks for, unless it is pretrained, and no other object. *)
Theorem C77_training_partial : forall (S D P H : Type) (cfg : config D H) (heap heap' : list (clf S D P)) rs,
  experiment cfg heap = (heap', Ok rs) -> NoDup (map snd (c_methods cfg)) ->
  (forall n i, In (n, i) (c_methods cfg) -> exists c c' calls, nth_error heap i = Some c /\ nth_error heap' i = Some c' /\ same_class c c' /\
     training cfg c calls /\ fits (k_fit c) (k_state c) calls (k_state c')) /\
  (forall i, ~ In i (map snd (c_methods cfg)) -> nth_error heap' i = nth_error heap i).
Proof. intros S D P H. exact training_ok. Qed.
Print Assumptions C77_training_partial.

(** Its results are the predictions of the classifiers as they are at the end, of every
    test house (and chunk) in order, under the names of the methods. *)
Theorem C77_results : forall (S D P H : Type) (cfg : config D H) (heap heap' : list (clf S D P)) rs,
  experiment cfg heap = (heap', Ok rs) -> exists parts, rs = concat parts /\ Forall2 (house_results cfg heap') (c_test cfg) parts.
Proof. intros S D P H. exact results_ok. Qed.
Print Assumptions C77_results.

(** Methods with objects of their own do not affect each other: each gives the same
    predictions, and ends in the same state, in an experiment on its own. *)
Theorem C77_alone : forall (S D P H : Type) (cfg : config D H) (heap heap' : list (clf S D P)) rs n i,
  experiment cfg heap = (heap', Ok rs) -> NoDup (map fst (c_methods cfg)) -> NoDup (map snd (c_methods cfg)) -> In (n, i) (c_methods cfg) ->
  exists heap1, experiment (only cfg (n, i)) heap = (heap1, Ok (of_method n rs)) /\ nth_error heap1 i = nth_error heap' i.
Proof. intros S D P H. exact alone_ok. Qed.
Print Assumptions C77_alone.

(** Refuted: a classifier whose partial_fit takes nothing but the data cannot be trained
    chunk by chunk (the number of the epoch is one argument too many): as soon as there is
    a chunk the experiment raises, and none of its methods gives results.  Of the
    algorithms of nilmtk this is so for Mean, and for FHMM if asked to. *)
Theorem C77_positional_refuted : forall (S D P H : Type) (cfg : config D H) (heap : list (clf S D P)) n i c,
  In (n, i) (c_methods cfg) -> NoDup (map snd (c_methods cfg)) -> nth_error heap i = Some c ->
  chunkwise cfg c -> some_chunk (c_train cfg) -> k_extra c = [] ->
  (exists e, snd (experiment cfg heap) = Err e) /\ (forall r, c_methods cfg = (n, i) :: r -> snd (experiment cfg heap) = Err TypeError).
Proof. intros S D P H. exact positional_ok. Qed.
Print Assumptions C77_positional_refuted.

(** Refuted: Hart85 takes the number of the epoch for its buffer size.  In the first
    epoch that is 0, no transition is paired, and the experiment raises whatever the data. *)
Theorem C77_hart_refuted : forall (P H : Type) mean_shift (cfg : config hart_data H) (heap : list (clf hart hart_data P)) n i c,
  In (n, i) (c_methods cfg) -> NoDup (map snd (c_methods cfg)) -> nth_error heap i = Some c ->
  chunkwise cfg c -> some_chunk (c_train cfg) -> k_extra c = parameters Hart85 -> k_fit c = hart_fit mean_shift ->
  exists e, snd (experiment cfg heap) = Err e.
Proof. intros P H. exact hart_ok. Qed.
Print Assumptions C77_hart_refuted.

(** Refuted: CO, trained chunk by chunk, learns from the first chunk alone. *)
Theorem C77_co_refuted : forall (P H : Type) cluster names (cfg : config co_data H) (heap heap' : list (clf co_state co_data P)) rs n i c pre h post d ds,
  experiment cfg heap = (heap', Ok rs) -> NoDup (map snd (c_methods cfg)) -> In (n, i) (c_methods cfg) -> nth_error heap i = Some c ->
  chunkwise cfg c -> k_fit c = co_fit cluster -> k_state c = [] ->
  c_train cfg = pre ++ h :: post -> Forall (fun x => h_chunks x = ([], None)) pre -> fst (h_chunks h) = d :: ds ->
  Forall (fun x => Forall (fun y => map fst y = names) (fst (h_chunks x))) (c_train cfg) ->
  exists c', nth_error heap' i = Some c' /\ k_state c' = map (fun a => (fst a, cluster (if 12 <? length d then 2 else 3) (snd a))) d.
Proof. intros P H. exact co_ok. Qed.
Print Assumptions C77_co_refuted.

(** Refuted: an experiment changes the number of epochs of the classifiers that it trains
    chunk by chunk to 1, so that it cannot be repeated with the same objects. *)
Theorem C77_epochs_refuted : forall (S D P H : Type) (cfg : config D H) (heap heap' : list (clf S D P)) rs n i c,
  experiment cfg heap = (heap', Ok rs) -> NoDup (map snd (c_methods cfg)) -> In (n, i) (c_methods cfg) -> nth_error heap i = Some c ->
  chunkwise cfg c -> k_epochs c <> None -> exists c', nth_error heap' i = Some c' /\ k_epochs c' = Some 1.
Proof. intros S D P H. exact epochs_ok. Qed.
Print Assumptions C77_epochs_refuted.

(** Examples: the state of a classifier is the list of calls that it has seen. *)
Definition log := list (bound * list nat).
Definition ex_fit (s : log) (b : bound) (ds : list nat) : log * option exn := (s ++ [(b, ds)], None).
Definition ex_clf (extra : list string) (pre chunk : option bool) (epochs : option nat) : clf log nat (nat * nat) :=
  mkClf extra pre chunk epochs ex_fit (fun s d => Ok (length s, d)) [].
Definition ex_houses : list (house nat string) := [mkHouse "a"%string (Ok 1) ([1; 2], None); mkHouse "b"%string (Ok 7) ([7], None)].
Definition ex_test : list (house nat string) := [mkHouse "c"%string (Ok 9) ([9; 10], None)].
Definition ex_heap := [ex_clf ["epoch"]%string None (Some true) (Some 2); ex_clf [] (Some true) (Some true) None; ex_clf [] None (Some false) None].
Definition ex_cfg (n : option nat) : config nat string := mkConfig n ex_houses ex_test [("net", 0); ("ready", 1); ("joint", 2)]%string.

Example C77_example_chunks : let r := experiment (ex_cfg (Some 100)) ex_heap in
  map k_state (fst r) = [[([("epoch", 0)], [1]); ([("epoch", 0)], [2]); ([("epoch", 0)], [7]); ([("epoch", 1)], [1]); ([("epoch", 1)], [2]); ([("epoch", 1)], [7])]%string; []; [([], [1; 7])]] /\
  snd r = Ok [("c", Some 0, [("net", (6, 9)); ("ready", (0, 9)); ("joint", (1, 9))]); ("c", Some 1, [("net", (6, 10)); ("ready", (0, 10)); ("joint", (1, 10))])]%string /\
  NoDup (map snd (c_methods (ex_cfg (Some 100)))) /\ NoDup (map fst (c_methods (ex_cfg (Some 100)))).
Proof. split; [reflexivity|]. split; [reflexivity|]. split; repeat constructor; cbn; intuition discriminate. Qed.
Example C77_example_joint : let r := experiment (ex_cfg None) ex_heap in
  map k_state (fst r) = [[([], [1; 7])]; []; [([], [1; 7])]] /\ snd r = Ok [("c", None, [("net", (1, 9)); ("ready", (0, 9)); ("joint", (1, 9))])]%string.
Proof. split; reflexivity. Qed.
Example C77_example_alone : snd (experiment (only (ex_cfg (Some 100)) ("joint"%string, 2)) ex_heap) = Ok [("c", Some 0, [("joint", (1, 9))]); ("c", Some 1, [("joint", (1, 10))])]%string.
Proof. reflexivity. Qed.
(* the same experiment again: one epoch only *)
Example C77_example_again : chunkwise (ex_cfg (Some 100)) (ex_clf ["epoch"]%string None (Some true) (Some 2)) /\
  let heap' := fst (experiment (ex_cfg (Some 100)) ex_heap) in
  option_map (fun c => length (k_state c)) (nth_error (fst (experiment (ex_cfg (Some 100)) heap')) 0) = Some 9.
Proof. split; [|reflexivity]. split; [exists 100; split; [reflexivity|discriminate]|]. repeat split; discriminate. Qed.

(* Mean beside a method that works *)
Definition ex_mean := ex_clf (parameters Mean) (Some false) (Some (chunk_wise_default Mean)) None.
Definition ex_cfg2 : config nat string := mkConfig (Some 100) ex_houses ex_test [("joint", 1); ("Mean", 0)]%string.
Example C77_example_positional : chunkwise ex_cfg2 ex_mean /\ some_chunk (c_train ex_cfg2) /\ k_extra ex_mean = [] /\
  snd (experiment ex_cfg2 [ex_mean; ex_clf [] None (Some false) None]) = Err TypeError.
Proof.
  split; [split; [exists 100; split; [reflexivity|discriminate]|]; repeat split; discriminate|]. split; [|split; reflexivity].
  exists [], (mkHouse "a"%string (Ok 1) ([1; 2], None)), [mkHouse "b"%string (Ok 7) ([7], None)], 1, [2]. repeat split. constructor.
Qed.

(* Hart85 on an appliance that switches on and off: jointly, and chunk by chunk *)
Definition ex_column : HartModel.ac := Active.
Definition ex_readings : list (Z * Q) := map (fun i => (Z.of_nat i, if (i / 5 mod 2 =? 0)%nat then 0 else inject_Z 500)%Q) (seq 0 40).
Definition ex_item : hart_data := ((ex_column, ex_readings), [("kettle"%string, map snd ex_readings)]).
Definition ex_hart : clf hart hart_data (list Q) :=
  mkClf (parameters Hart85) (Some false) (Some (chunk_wise_default Hart85)) None (hart_fit (fun rows => firstn 1 rows)) (fun _ _ => Ok []) (mkHart None None None None).
Definition ex_cfg3 (n : option nat) : config hart_data string := mkConfig n [mkHouse "a"%string (Ok ex_item) ([ex_item], None)] [] [("Hart85", 0)]%string.
Example C77_example_hart : chunkwise (ex_cfg3 (Some 40)) ex_hart /\ some_chunk (c_train (ex_cfg3 (Some 40))) /\
  snd (experiment (ex_cfg3 None) [ex_hart]) = Ok [] /\ snd (experiment (ex_cfg3 (Some 40)) [ex_hart]) = Err ValueError.
Proof.
  split; [split; [exists 40; split; [reflexivity|discriminate]|]; repeat split; discriminate|].
  split; [exists [], (mkHouse "a"%string (Ok ex_item) ([ex_item], None)), [], ex_item, []; repeat split; constructor|]. split; vm_compute; reflexivity.
Qed.

(* CO: the second chunk and the second house are not used *)
Definition ex_co : clf co_state co_data (list Q) :=
  mkClf (parameters CO) (Some false) (Some true) None (co_fit (fun k rs => map Qnum rs)) (fun _ _ => Ok []) [].
Definition ex_cfg4 : config co_data string :=
  mkConfig (Some 100) [mkHouse "a"%string (Err KeyError) ([[("fridge", [90]); ("kettle", [2000])]; [("fridge", [80]); ("kettle", [1900])]], None);
                       mkHouse "b"%string (Err KeyError) ([[("fridge", [300]); ("kettle", [50])]], None)]%string%Q [] [("CO", 0)]%string.
Example C77_example_co : chunkwise ex_cfg4 ex_co /\ map k_state (fst (experiment ex_cfg4 [ex_co])) = [[("fridge", [90]); ("kettle", [2000])]]%string%Z /\ snd (experiment ex_cfg4 [ex_co]) = Ok [].
Proof. split; [split; [exists 100; split; [reflexivity|discriminate]|]; repeat split; discriminate|]. split; reflexivity. Qed.
