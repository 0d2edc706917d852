(** Property theorems about the import of a building's metadata (C53). *)
From Coq Require Import Permutation.
From Verif Require Import Base GroupModel ImportModel ImportSpec ImportProofs2.
Open Scope nat_scope.

(** C53: whenever the import succeeds, every declared meter is in the building exactly once: at the
    top, in one nested group, or among the disabled meters. *)
Theorem C53_every_meter_once : forall b d elec appliances s, NoDup (map md_instance elec) ->
  import_metadata b d elec appliances = Ok s ->
  Permutation (map md_instance elec) (flat_map instances (i_meters s) ++ flat_map instances (i_disabled s)).
Proof. exact once_thm. Qed.
Print Assumptions C53_every_meter_once.

(** C53: if no appliance is on the mains (meter 0), the group has, in order, the declared meters
    that no appliance takes into a group and that are not disabled, then one group
    for each appliance with several meters (or none), holding its meters in the order it
    names them; the disabled meters are those that no group takes. *)
Theorem C53_layout : forall b d elec appliances s, NoDup (map md_instance elec) -> no_mains appliances ->
  import_metadata b d elec appliances = Ok s ->
  i_meters s =
    map (leaf_for b d) (filter (fun m => negb (grouped appliances (md_instance m)) && negb (md_disabled m)) elec) ++
    map (fun is => Group 0 (flat_map (declared b d elec) is) []) (group_lists appliances) /\
  i_disabled s = map (leaf_for b d) (filter (fun m => negb (grouped appliances (md_instance m)) && md_disabled m) elec).
Proof. intros b d elec appliances s N. exact (layout_thm b d elec N appliances s). Qed.
Print Assumptions C53_layout.

(** C53: and each meter has exactly the appliances that name it, once and in order. *)
Theorem C53_attached : forall b d elec appliances s, NoDup (map md_instance elec) -> no_mains appliances ->
  import_metadata b d elec appliances = Ok s ->
  forall i, appliances_of s i =
    filter (fun k => match nth_error appliances k with Some a => declaresb a i | None => false end) (seq 0 (length appliances)).
Proof. intros b d elec appliances s N. exact (attached_thm b d elec N appliances s). Qed.
Print Assumptions C53_attached.

(** C53: the import succeeds exactly for consistent metadata. *)
Theorem C53_success : forall b d elec appliances, NoDup (map md_instance elec) -> no_mains appliances ->
  ((exists s, import_metadata b d elec appliances = Ok s) <-> consistent elec appliances).
Proof. intros b d elec appliances N. exact (import_ok_iff b d elec N appliances). Qed.
Print Assumptions C53_success.

(** C53: with one meter per appliance, an appliance on the mains is attached to every site meter. *)
Theorem C53_mains_partial : forall b d elec appliances s, NoDup (map md_instance elec) ->
  Forall (fun a => exists i, a = Some [i]) appliances -> import_metadata b d elec appliances = Ok s ->
  forall m, In m elec -> md_instance m <> 0 ->
  appliances_of s (md_instance m) =
    filter (fun k => match nth_error appliances k with
                     | Some a => declaresb a (md_instance m) || (declaresb a 0 && md_site m)
                     | None => false
                     end) (seq 0 (length appliances)).
Proof. intros b d elec appliances s N. exact (mains_thm b d elec N appliances s). Qed.
Print Assumptions C53_mains_partial.

(** Two mains, four submeters of which one is disabled; an oven on two meters. *)
Definition house : list meter_md :=
  [mkMd 1 true false; mkMd 2 true false; mkMd 3 false false; mkMd 4 false false; mkMd 5 false true; mkMd 6 false false].
Definition contents : list appliance_md := [Some [6]; Some [3; 4]; Some [5]; Some [6]].
Example C53_met :
  NoDup (map md_instance house) /\ no_mains contents /\ consistent house contents /\
  match import_metadata 7 9 house contents with
  | Ok s => i_meters s = [Leaf 1 7 9 true; Leaf 2 7 9 true; Leaf 6 7 9 false; Group 0 [Leaf 3 7 9 false; Leaf 4 7 9 false] []] /\
            i_disabled s = [Leaf 5 7 9 false] /\ appliances_of s 6 = [0; 3] /\ appliances_of s 4 = [1] /\ appliances_of s 1 = []
  | Err _ => False
  end.
Proof.
  split; [repeat constructor; cbn; intuition discriminate|]. split; [repeat constructor; intros (is & E & H); injection E as <-; cbn in H; intuition discriminate|]. split.
  - apply (C53_success 7 9); [repeat constructor; cbn; intuition discriminate|repeat constructor; intros (is & E & H); injection E as <-; cbn in H; intuition discriminate|]. eexists. reflexivity.
  - repeat split.
Qed.
Example C53_mains_met :
  match import_metadata 7 9 house [Some [0]; Some [3]] with
  | Ok s => appliances_of s 1 = [0] /\ appliances_of s 2 = [0] /\ appliances_of s 3 = [1] /\ appliances_of s 4 = []
  | Err _ => False
  end.
Proof. repeat split. Qed.
(** Inconsistent metadata are refused: an unknown meter, a meter named twice, a meter of an earlier group; no mains. *)
Example C53_refused :
  import_metadata 7 9 house [Some [8]] = Err KeyError /\ import_metadata 7 9 house [Some [3; 3]] = Err ValueError /\
  import_metadata 7 9 house [Some [3; 4]; Some [4; 6]] = Err KeyError /\ import_metadata 7 9 house [None] = Err KeyError /\
  import_metadata 7 9 [mkMd 3 false false] [Some [0]] = Err AttributeError.
Proof. repeat split. Qed.

(** C53: whether the metadata can be imported depends on the order of the appliances. *)
Theorem C53_order_refuted : exists elec a1 a2 s, NoDup (map md_instance elec) /\
  import_metadata 7 9 elec [a1; a2] = Ok s /\ import_metadata 7 9 elec [a2; a1] = Err KeyError.
Proof.
  exists house, (Some [3]), (Some [3; 4]). eexists. split; [repeat constructor; cbn; intuition discriminate|]. split; reflexivity.
Qed.
Print Assumptions C53_order_refuted.

(** C53: a meter marked as disabled stays enabled if it is in a nested group. *)
Theorem C53_disabled_refuted : exists elec appliances s m, NoDup (map md_instance elec) /\
  import_metadata 7 9 elec appliances = Ok s /\ In m elec /\ md_disabled m = true /\
  In (md_instance m) (flat_map instances (i_meters s)) /\ i_disabled s = [].
Proof.
  exists house, [Some [5; 6]]. eexists. exists (mkMd 5 false true). split; [repeat constructor; cbn; intuition discriminate|]. split; [reflexivity|]. cbn. intuition.
Qed.
Print Assumptions C53_disabled_refuted.

(** C53: an appliance on the mains is lost when the mains are two nested groups. *)
Theorem C53_mains_refuted : exists elec appliances s, NoDup (map md_instance elec) /\ Forall (fun m => md_site m = true) elec /\
  import_metadata 7 9 elec (appliances ++ [Some [0]]) = Ok s /\ forall i, ~ In (length appliances) (appliances_of s i).
Proof.
  exists [mkMd 1 true false; mkMd 2 true false; mkMd 3 true false; mkMd 4 true false], [Some [1; 2]; Some [3; 4]]. eexists.
  split; [repeat constructor; cbn; intuition discriminate|]. split; [repeat constructor|]. split; [reflexivity|]. intros i. cbn.
  destruct i as [|[|[|[|[|i]]]]]; cbn; intuition discriminate.
Qed.
Print Assumptions C53_mains_refuted.
