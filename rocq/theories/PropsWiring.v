(** Property C58: the wiring of meters. *)
From Coq Require Import Lia.
From Verif Require Import Base WiringModel WiringSpec WiringProofs WiringProofs2.
Open Scope nat_scope.

(** [created] are all meters created so far, in order. *)
Theorem C58_upstream : forall created m k u, created_once created -> below m (S k) -> In u created ->
  same_building u m -> i_instance (w_id u) = S k -> upstream (register_all created) m = Ok (Some (WMeter u)).
Proof. exact upstream_found. Qed.
Print Assumptions C58_upstream.

Theorem C58_upstream_unknown : forall created m k, created_once created -> below m (S k) ->
  (forall u, In u created -> same_building u m -> i_instance (w_id u) <> S k) ->
  upstream (register_all created) m = Err KeyError.
Proof. exact upstream_missing. Qed.
Print Assumptions C58_upstream_unknown.

Theorem C58_upstream_mains : forall created m l, created_once created -> below m 0 -> In m created ->
  site_meters created m l ->
  upstream (register_all created) m = Ok (match l with [] => None | [x] => Some (WMeter x) | _ => Some (WGroup l) end).
Proof. exact upstream_mains. Qed.
Print Assumptions C58_upstream_mains.

Theorem C58_downstream : forall reg ms top, wired_below reg ms top -> exists sel : wmeter -> bool,
  (forall m, sel m = true <-> exists n, hangs reg m n /\ equal_nodes top n) /\
  downstream_of_mains reg ms = Ok (map WMeter (filter sel (meters_in ms))).
Proof. exact downstream_thm. Qed.
Print Assumptions C58_downstream.

Theorem C58_group : forall reg m ms u us, upstream reg m = Ok u -> Forall2 (fun m u => upstream reg m = Ok u) ms us ->
  Forall (equal_upstream u) us -> group_upstream reg (m :: ms) = Ok u.
Proof. exact group_upstream_same. Qed.
Print Assumptions C58_group.

Theorem C58_group_several : forall reg m ms u us, upstream reg m = Ok u -> Forall2 (fun m u => upstream reg m = Ok u) ms us ->
  Exists (fun v => ~ equal_upstream u v) us -> group_upstream reg (m :: ms) = Err RuntimeError.
Proof. exact group_upstream_diff. Qed.
Print Assumptions C58_group_several.

(** A meter without wiring, or below a negative instance, is refused; so is one
    that hangs below a meter of another building. *)
Theorem C58_unwired : forall reg m, w_site m = false -> (w_submeter_of m = None \/ exists k, w_submeter_of m = Some k /\ (k < 0)%Z) ->
  upstream reg m = Err ValueError.
Proof. exact upstream_unwired. Qed.
Print Assumptions C58_unwired.
Theorem C58_elsewhere : forall reg m k b, w_site m = false -> w_submeter_of m = Some (Z.of_nat k) -> w_upstream_building m = Some b ->
  b <> i_building (w_id m) -> upstream reg m = Err GenericException.
Proof. exact upstream_elsewhere. Qed.
Print Assumptions C58_elsewhere.

(** Of the meters created with one identifier, the first is the one that is
    found later. *)
Theorem C58_registered : forall created, NoDup (map w_id (register_all created)) /\
  forall m, In m (register_all created) <-> exists before after, created = before ++ m :: after /\ ~ In (w_id m) (map w_id before).
Proof. exact registered_thm. Qed.
Print Assumptions C58_registered.

(** A group whose meters hang below two different tops is refused. *)
Theorem C58_two_tops : forall reg ms top top', NoDup (map w_id (meters_in ms)) ->
  (forall m, In m (meters_in ms) -> exists u, upstream reg m = Ok u) -> ~ equal_nodes top top' ->
  (forall t, t = top \/ t = top' -> (exists m n, In m (meters_in ms) /\ hangs reg m n /\ equal_nodes t n) /\
     forall m n, In m (meters_in ms) -> hangs reg m n -> ~ equal_nodes t (WMeter m)) ->
  downstream_of_mains reg ms = Err RuntimeError.
Proof. exact two_tops_thm. Qed.
Print Assumptions C58_two_tops.

(** Two site meters, a meter below the mains, one below meter 3. *)
Definition ex_meter (obj inst : nat) (site : bool) (sub : option Z) : wmeter := mkWmeter obj (mkMid inst 1 7) site sub None.
Definition ex_1 := ex_meter 1 1 true None.
Definition ex_2 := ex_meter 2 2 true None.
Definition ex_3 := ex_meter 3 3 false (Some 0%Z).
Definition ex_4 := ex_meter 4 4 false (Some 3%Z).
Definition ex_created := [ex_1; ex_2; ex_3; ex_4].
Example C58_example :
  created_once ex_created /\ below ex_3 0 /\ below ex_4 3 /\ site_meters ex_created ex_3 [ex_1; ex_2] /\
  wired_below (register_all ex_created) [WNested [WLeaf ex_1; WLeaf ex_2]; WLeaf ex_4; WLeaf ex_3] (WGroup [ex_2; ex_1]) /\
  downstream_of_mains (register_all ex_created) [WNested [WLeaf ex_1; WLeaf ex_2]; WLeaf ex_4; WLeaf ex_3] = Ok [WMeter ex_3].
Proof.
  split; [repeat constructor; cbn; intuition discriminate|]. split; [repeat split; auto|]. split; [repeat split; auto|]. split; [|split; [|reflexivity]].
  - exists (fun x => (i_building (w_id x) =? 1) && (i_dataset (w_id x) =? 7) && w_site x). split; [|reflexivity].
    intros x. rewrite !andb_true_iff, !Nat.eqb_eq. unfold same_building. cbn. tauto.
  - split; [repeat constructor; cbn; intuition discriminate|]. split; [|split; [|split]].
    + intros m I. cbn in I. repeat destruct I as [<-|I]; try destruct I; eexists; reflexivity.
    + exists ex_3, (WGroup [ex_1; ex_2]). split; [cbn; auto 10|]. split; [reflexivity|]. cbn. intros i. intuition.
    + intros m n I H E. destruct E.
    + intros m n I H. cbn in I. unfold hangs in H. destruct I as [<-|[<-|[<-|[<-|[]]]]]; cbn in H; try discriminate H; injection H as <-.
      * right. exists ex_3, (WGroup [ex_1; ex_2]). split; [cbn; auto 10|]. split; reflexivity.
      * left. cbn. intros i. intuition.
Qed.

(** The data set is opened a second time: the upstream meter of its meter 4 is the
    object of the first one, which reads the first one's store. *)
Theorem C58_second_dataset_refuted : exists first second m u u', created_once first /\ created_once second /\
  In m second /\ In u second /\ hangs (register_all second) m (WMeter u) /\
  hangs (register_all (first ++ second)) m (WMeter u') /\ w_object u' <> w_object u.
Proof.
  exists ex_created, [ex_meter 11 1 true None; ex_meter 13 3 false (Some 0%Z); ex_meter 14 4 false (Some 3%Z)], (ex_meter 14 4 false (Some 3%Z)), (ex_meter 13 3 false (Some 0%Z)), ex_3.
  split; [repeat constructor; cbn; intuition discriminate|]. split; [repeat constructor; cbn; intuition discriminate|].
  split; [cbn; auto|]. split; [cbn; auto|]. split; [reflexivity|]. split; [reflexivity|]. cbn. lia.
Qed.
Print Assumptions C58_second_dataset_refuted.

(** The mains of the building is meter 1; meter 2, also a site meter, is
    disabled: the upstream meter is a group of both. *)
Theorem C58_disabled_mains_refuted : exists created (meters disabled : list wmeter) m u, created_once created /\
  created = meters ++ disabled /\ In m meters /\ below m 0 /\ mains_of meters = Some (WMeter u) /\
  upstream (register_all created) m = Ok (Some (WGroup [u; ex_2])).
Proof.
  exists [ex_1; ex_3; ex_2], [ex_1; ex_3], [ex_2], ex_3, ex_1.
  split; [repeat constructor; cbn; intuition discriminate|]. repeat split; cbn; auto.
Qed.
Print Assumptions C58_disabled_mains_refuted.

(** A group with a mains meter only has no meters downstream of it, but asking
    raises. *)
Theorem C58_no_submeters_refuted : exists m, w_site m = true /\
  downstream_of_mains (register_all [m]) [WLeaf m] = Err RuntimeError.
Proof. exists ex_1. split; reflexivity. Qed.
Print Assumptions C58_no_submeters_refuted.

(** Meter 5 hangs below meter 2, meter 3 below meter 1: two tops. *)
Example C58_two_tops_example :
  let ms := [ex_meter 3 3 false (Some 1%Z); ex_meter 5 5 false (Some 2%Z)] in
  downstream_of_mains (register_all (ex_1 :: ex_2 :: ms)) (map WLeaf ms) = Err RuntimeError /\
  (forall m, In m ms -> exists u, upstream (register_all (ex_1 :: ex_2 :: ms)) m = Ok u) /\ ~ equal_nodes (WMeter ex_1) (WMeter ex_2).
Proof. cbn zeta. split; [reflexivity|]. split; [intros m [<-|[<-|[]]]; eexists; reflexivity|cbn; discriminate]. Qed.
