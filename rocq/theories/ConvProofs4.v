(** Files of meters in a CSV store. *)
From Coq Require Import Ascii String.
From Verif Require Import Base TimeFrameModel StoreModel StoreSpec KeyModel KeySpec ConvModel ConvSpec.
Import List.
Open Scope list_scope.
Open Scope nat_scope.

Lemma short_no_meter py_int k : length k <= 1 -> ~ is_meter_key py_int k.
Proof.
  intros L (ko & m & E & _). destruct k as [|c [|d r]]; [vm_compute in E; discriminate| |cbn in L; lia].
  destruct c as [[] [] [] [] [] [] [] []]; vm_compute in E; discriminate.
Qed.

Lemma csv_files_differ : forall py_int k k' p, key_to_path py_int k = Ok p -> key_to_path py_int k' = Ok p -> is_meter_key py_int k -> is_meter_key py_int k' ->
  unslash k = unslash k'.
Proof.
  intros py_int k k' p.
  assert (H : forall k, key_to_path py_int k = Ok p -> is_meter_key py_int k -> p = unslash k ++ lit ".csv").
  { clear. intros k E M. destruct (Nat.ltb 1 (length k)) eqn:L.
    - destruct M as (ko & m & K & Em). unfold key_to_path in E. rewrite L, K in E. cbn [bind] in E. rewrite Em in E. injection E as <-. reflexivity.
    - exfalso. apply (short_no_meter py_int k); [apply Nat.ltb_ge in L; exact L|exact M]. }
  intros E E' M M'. apply (H k) in E; [|exact M]. apply (H k') in E'; [|exact M']. rewrite E in E'. apply app_inv_tail in E'. exact E'.
Qed.
