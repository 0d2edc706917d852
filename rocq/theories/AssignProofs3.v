(** Proofs about the error in assigned energy of groups. *)
From Coq Require Import QArith.
From Verif Require Import Base TimeFrameModel StoreModel GStatsModel ShareModel ItemModel ItemSpec PairModel PairSpec PairProofs PairProofs2 AssignModel.
Import List. Open Scope Z_scope.

Section Groups.
Context {app : Type}.
Variable matches : app -> list (nat * obj) -> res bool.
Variable order : list app -> list app.
Variable several : list (node app) -> list obj.
Variable table : node app -> stored * tf.
Variable other_error : node app * found app -> res series.

Lemma counterpart_meter d (m x : node app) : is_group m = false -> counterpart d m x -> is_group x = false.
Proof. destruct m as [i b d' s a|ms]; [|discriminate]. intros _ H. destruct x as [i' b' d2 s' a'|ms']; [reflexivity|]. cbn in H. unfold Same in H. cbn in H. discriminate. Qed.

Lemma group_errors d c (predictions truth subs : list (node app)) r : within_dataset d (Grp truth) -> Filtered is_submeter predictions subs ->
  Forall (fun m => ordinary (ident m) /\ is_group m = false) subs ->
  ForallOrdPairs (fun m m' => ~ Same (instance m) (instance m')) subs ->
  error_in_assigned_energy matches order several table other_error c predictions truth = Ok r ->
  exists vs, r = combine (map instance subs) vs /\
    Forall2 (fun m v => exists x, First (counterpart d m) truth x /\
       assigned_error (fst (table m)) (snd (table m)) (fst (table x)) (snd (table x)) c = Ok v) subs vs.
Proof.
  intros Hd HF HO HD E.
  assert (HO' : Forall (fun m => ordinary (ident m)) subs) by (eapply Forall_impl; [|exact HO]; cbv beta; tauto).
  destruct (metric_distinct matches order several (pair_error table other_error c) d predictions truth subs r Hd HF HO' HD E) as (vs & Er & HV).
  exists vs. split; [exact Er|]. clear Er E HD HF HO'. revert HO. induction HV as [|m v subs vs (x & Hx & Hv) HV IH]; intros HO; [constructor|].
  apply Forall_cons_iff in HO. destruct HO as [[_ O1] O2]. constructor; [|exact (IH O2)]. exists x. split; [exact Hx|].
  assert (Hc : counterpart d m x) by (destruct Hx as (l1 & l2 & _ & K & _); exact K).
  pose proof (counterpart_meter d m x O1 Hc) as G. destruct m; [|discriminate]. destruct x; [|discriminate]. exact Hv.
Qed.
End Groups.
