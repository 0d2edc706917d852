(** Property C59: grouping meters by their appliances; dominant appliances. *)
From Verif Require Import Base MatchModel MatchSpec MatchProofs ByModel BySpec ByProofs.
Open Scope nat_scope.

Theorem C59_dominant : forall dominant m a, dominant_appliance dominant m = Some a <-> is_dominant dominant m a.
Proof. exact dominant_spec. Qed.
Print Assumptions C59_dominant.

Theorem C59_group_dominant : forall app_eqb, (forall a b, app_eqb a b = true <-> a = b) -> forall dominant g,
  (forall x, g <> [] -> (forall m, In m g -> dominant_appliance dominant m = x) -> group_dominant app_eqb dominant g = Ok x) /\
  (forall m m', In m g -> In m' g -> dominant_appliance dominant m <> dominant_appliance dominant m' ->
     group_dominant app_eqb dominant g = Err RuntimeError).
Proof. exact group_dominant_thm. Qed.
Print Assumptions C59_group_dominant.

(** One group per value given by a dominant appliance; in it the meters that
    match, in order. *)
Theorem C59_groups : forall types syn setlist dominant k g gs, lists_sets setlist ->
  groupby types syn setlist dominant k g = Ok gs ->
  NoDup (map fst gs) /\
  (forall v, In v (map fst gs) <-> exists m a, In m g /\ is_dominant dominant m a /\ gives types a k v) /\
  (forall v l, In (v, l) gs -> l <> [] /\ exists sel : meter -> bool,
     (forall m, sel m = true <-> matches_appliances types syn m (QDict [(k, Atom v)]) = Ok true) /\ l = filter sel g).
Proof. exact groupby_thm. Qed.
Print Assumptions C59_groups.

Theorem C59_members : forall types syn setlist dominant k g gs v l m, lists_sets setlist ->
  groupby types syn setlist dominant k g = Ok gs -> In (v, l) gs -> In m l ->
  In m g /\ exists a, In a (m_appliances m) /\ app_has types syn a k (Atom v).
Proof. exact group_members. Qed.
Print Assumptions C59_members.

(** For meters with one appliance: missing are meters with several, for which
    an earlier appliance can raise. *)
Theorem C59_complete_partial : forall types syn setlist dominant k g gs v m a w t x, lists_sets setlist ->
  groupby types syn setlist dominant k g = Ok gs -> In m g -> m_appliances m = [a] ->
  k <> TypeN -> k <> InstanceN -> k <> CategoryN -> (forall n, k <> Method n) ->
  get TypeN (a_metadata a) = Some t -> types t = Some x ->
  (get k (a_metadata a) = Some (Atom v) \/ (get k (a_metadata a) = None /\ get k (t_attrs x) = Some w /\ value_covers w (Atom v))) ->
  exists l, In (v, l) gs /\ In m l.
Proof. exact group_complete. Qed.
Print Assumptions C59_complete_partial.

(** Type 1 (category 3); the room (word 9) is in the metadata. *)
Definition ex_types (t : value) : option app_type :=
  match t with Atom 1 => Some (mkType [(Word 4, ListV [40; 41])] (Some [[3]])) | _ => None end.
Definition ex_app (inst room : nat) : appliance := mkApp [(TypeN, Atom 1); (InstanceN, Atom inst); (Word 9, Atom room)].
Definition ex_meter (i : nat) (l : list appliance) : meter := mkMeter (Atom i) (Atom 1) (Atom 8) [] (Ok []) l.
Definition ex_set (l : list nat) : list nat := nodup Nat.eq_dec l.
Lemma ex_set_ok : lists_sets ex_set.
Proof. intros l. split; [apply NoDup_nodup|]. intros x. apply nodup_In. Qed.
Definition m1 := ex_meter 1 [ex_app 1 5].
Definition m2 := ex_meter 2 [ex_app 2 6].
Definition m3 := ex_meter 3 [ex_app 3 5].
Example C59_example : lists_sets ex_set /\
  groupby ex_types true ex_set (fun _ => false) (Word 9) [m1; m2; m3] = Ok [(6, [m2]); (5, [m1; m3])] /\
  groupby ex_types true ex_set (fun _ => false) (Word 4) [m1; m2] = Ok [(40, [m1; m2]); (41, [m1; m2])].
Proof. split; [exact ex_set_ok|split; reflexivity]. Qed.

(** A meter with a second appliance in another room is in both groups. *)
Theorem C59_overlap_refuted : exists types m m' gs, groupby types true ex_set (fun _ => false) (Word 9) [m; m'] = Ok gs /\
  lists_sets ex_set /\ is_dominant (fun _ => false) m' (ex_app 2 6) /\ gs = [(5, [m; m']); (6, [m'])].
Proof.
  exists ex_types, m1, (ex_meter 2 [ex_app 2 6; ex_app 3 5]), [(5, [m1; ex_meter 2 [ex_app 2 6; ex_app 3 5]]); (6, [ex_meter 2 [ex_app 2 6; ex_app 3 5]])].
  split; [reflexivity|]. split; [exact ex_set_ok|]. split; [|reflexivity]. apply (dom_first _ _ _ [ex_app 3 5]); [repeat constructor|reflexivity].
Qed.
Print Assumptions C59_overlap_refuted.

(** A meter without appliances, such as the mains, makes groupby raise. *)
Theorem C59_mains_refuted : exists types m mains, lists_sets ex_set /\ m_appliances mains = [] /\
  groupby types true ex_set (fun _ => false) (Word 9) [m] = Ok [(5, [m])] /\
  groupby types true ex_set (fun _ => false) (Word 9) [m; mains] = Err AttributeError.
Proof. exists ex_types, m1, (ex_meter 9 []). split; [exact ex_set_ok|]. repeat split. Qed.
Print Assumptions C59_mains_refuted.

(** The documented groupby('category') gives no groups, although the meter can be
    selected by its category. *)
Theorem C59_category_refuted : exists types m, lists_sets ex_set /\
  select (matches_appliances types true) [m] [(CategoryN, Atom 3)] = Ok [m] /\
  groupby types true ex_set (fun _ => false) CategoryN [m] = Ok [].
Proof. exists ex_types, m1. split; [exact ex_set_ok|split; reflexivity]. Qed.
Print Assumptions C59_category_refuted.

(** A list in the metadata of the appliance: the groups cannot be built. *)
Theorem C59_list_refuted : exists types m, lists_sets ex_set /\
  groupby types true ex_set (fun _ => false) (Word 9) [m] = Err KeyError.
Proof.
  exists ex_types, (ex_meter 1 [mkApp [(TypeN, Atom 1); (InstanceN, Atom 1); (Word 9, ListV [5; 6])]]). split; [exact ex_set_ok|reflexivity].
Qed.
Print Assumptions C59_list_refuted.
