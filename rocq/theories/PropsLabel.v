(** C94: labels. *)
From Coq Require Import String Ascii Permutation Lia.
From Verif Require Import Base LabelModel LabelSpec LabelProofs.
Import List. Open Scope list_scope. Open Scope nat_scope.

(** The full label of an appliance identifies it. *)
Theorem C94_appliance a b s : appliance_label false a = Ok s -> appliance_label false b = Ok s ->
  identifier a = identifier b /\ (a_type a = Some "unknown"%string -> str_opt (fun x => x) (a_original a) = str_opt (fun x => x) (a_original b)).
Proof. exact (label_identifies a b s). Qed.
Print Assumptions C94_appliance.
Example C94_appliance_case : appliance_label false (mkAppl (Some "fridge's"%string) (Some 2%Z) None true) = Ok "(""fridge's"", 2)"%string.
Proof. reflexivity. Qed.

(** So does the pretty label, for types that do not end with a number. *)
Theorem C94_pretty_appliance a b t u n k s : complete a t n -> complete b u k -> (1 <= n)%Z -> (1 <= k)%Z -> unnumbered t -> unnumbered u ->
  appliance_label true a = Ok s -> appliance_label true b = Ok s -> identifier a = identifier b.
Proof. exact (pretty_identifies a b t u n k s). Qed.
Print Assumptions C94_pretty_appliance.
Example C94_pretty_appliance_case : complete (mkAppl (Some "tv"%string) (Some 2%Z) None false) "tv" 2 /\ unnumbered "tv" /\
  appliance_label true (mkAppl (Some "tv"%string) (Some 2%Z) None false) = Ok "Tv 2"%string.
Proof.
  split; [|split; [|reflexivity]].
  - split; [reflexivity|]. split; [reflexivity|]. split; [|discriminate]. cbn. unfold plain_char. cbn. lia.
  - intros p n E. destruct p as [|a [|b [|c p]]]; cbn in E; try discriminate E.
Qed.
(** For others it does not. *)
Theorem C94_pretty_appliance_refuted : exists a b t u n k s, complete a t n /\ complete b u k /\ (1 <= n)%Z /\ (1 <= k)%Z /\
  appliance_label true a = Ok s /\ appliance_label true b = Ok s /\ identifier a <> identifier b.
Proof.
  exists (mkAppl (Some "tv 2"%string) (Some 1%Z) None false), (mkAppl (Some "tv"%string) (Some 2%Z) None false), "tv 2"%string, "tv"%string, 1%Z, 2%Z, "Tv 2"%string.
  split; [|split; [|split; [lia|split; [lia|split; [reflexivity|split; [reflexivity|discriminate]]]]]].
  - split; [reflexivity|]. split; [reflexivity|]. split; [|discriminate]. cbn. unfold plain_char. cbn. lia.
  - split; [reflexivity|]. split; [reflexivity|]. split; [|discriminate]. cbn. unfold plain_char. cbn. lia.
Qed.
Print Assumptions C94_pretty_appliance_refuted.

(** The full label of a meter without a name that is not a site meter
    identifies its appliances, whichever of them are marked as dominant. *)
Theorem C94_meter m m' s : by_appliances m -> by_appliances m' ->
  (forall a, In a (m_appliances m) \/ In a (m_appliances m') -> exists t n, complete a t n) ->
  meter_label false m = Ok s -> meter_label false m' = Ok s -> map identifier (m_appliances m) = map identifier (m_appliances m').
Proof. exact (meter_identifies m m' s). Qed.
Print Assumptions C94_meter.
Definition fridge n d := mkAppl (Some "fridge"%string) (Some n) None d.
Definition tv n := mkAppl (Some "tv"%string) (Some n) None false.
Example C94_meter_case : by_appliances (mkMeter None false [tv 1; fridge 2 true]) /\ complete (tv 1) "tv" 1 /\
  meter_label false (mkMeter None false [tv 1; fridge 2 true]) = Ok "('tv', 1), ('FRIDGE', 2)"%string.
Proof. split; [now split|]. split; [|reflexivity]. split; [reflexivity|]. split; [reflexivity|]. split; [|discriminate]. cbn. unfold plain_char. cbn. lia. Qed.

(** The pretty label of such a meter is the type of one appliance: the first
    that is marked as dominant, or the first of all. *)
Theorem C94_pretty_meter m s : by_appliances m -> m_appliances m <> [] ->
  (meter_label true m = Ok s <->
   exists a t, In a (m_appliances m) /\
     (find a_dominant (m_appliances m) = Some a \/ hd_error (m_appliances m) = Some a /\ forall b, In b (m_appliances m) -> a_dominant b = false) /\
     a_type a = Some t /\ capital t s).
Proof. exact (pretty_meter m s). Qed.
Print Assumptions C94_pretty_meter.

(** So it is not so that the labels of different meters differ: those of
    appliances of one type are the same, and [get_labels] repeats them. *)
Theorem C94_same_refuted {K} order (lookup : K -> res item) i j a b c r : 
  a_type a = Some (String c r) -> a_type b = Some (String c r) ->
  lookup i = Ok (Meter (mkMeter None false [a])) -> lookup j = Ok (Meter (mkMeter None false [b])) ->
  exists l, get_labels order lookup true [i; j] = Ok [l; l].
Proof.
  intros Ha Hb Hi Hj. exists (String (upper_char c) r). unfold get_labels. cbn [mapM]. rewrite Hi, Hj. cbn [bind mapM item_label meter_label pretty_label m_name m_site dominant_appliance m_appliances].
  rewrite Ha, Hb. reflexivity.
Qed.
Print Assumptions C94_same_refuted.
Example C94_same_case : get_labels (fun l => l) (fun n => Ok (Meter (mkMeter None false [fridge n false]))) true [1%Z; 2%Z] = Ok ["Fridge"; "Fridge"]%string /\
  get_labels (fun l => l) (fun n => Ok (Meter (mkMeter None false [fridge n false]))) false [1%Z; 2%Z] = Ok ["('fridge', 1)"; "('fridge', 2)"]%string.
Proof. split; reflexivity. Qed.

(** Nor that the label lists all appliance types, as documented: the label
    does not depend on the others. *)
Theorem C94_all_types_refuted a others c r : a_type a = Some (String c r) -> a_dominant a = true ->
  meter_label true (mkMeter None false (a :: others)) = meter_label true (mkMeter None false [a]).
Proof.
  intros T D. unfold meter_label, pretty_label. cbn [m_name m_site]. unfold dominant_appliance. cbn [m_appliances].
  destruct others as [|b o]; [reflexivity|]. cbn [find]. now rewrite D.
Qed.
Print Assumptions C94_all_types_refuted.

(** Nor that there is always something to read: a meter without a name and
    without appliances has the empty label. *)
Theorem C94_empty_refuted pretty m : by_appliances m -> (meter_label pretty m = Ok ""%string <-> m_appliances m = []).
Proof.
  intros B. pose proof B as [N S]. split.
  - destruct (m_appliances m) as [|a l] eqn:E; [reflexivity|]. destruct pretty; intros H; exfalso.
    + apply (proj1 (pretty_meter m "" B ltac:(rewrite E; discriminate))) in H. destruct H as [x [t [_ [_ [_ [c [c' [r [_ [[=] _]]]]]]]]]].
    + unfold meter_label in H. rewrite N, S in H. unfold appliance_names in H. rewrite E in H. cbn [mapM] in H.
      unfold appliance_label at 1 in H. cbn [bind] in H. destruct (mapM _ l) as [ys|]; cbn [bind] in H; [|discriminate].
      apply (f_equal (fun r => match r with Ok y => y | Err _ => "x"%string end)) in H. rewrite join_listed in H. cbn [listed] in H.
      destruct (a_dominant a), (is_unknown a); cbn in H; discriminate.
  - intros E. unfold meter_label, pretty_label, dominant_appliance, appliance_names. rewrite N, S, E. destruct pretty; reflexivity.
Qed.
Print Assumptions C94_empty_refuted.

(** The label of a group without a name lists the labels of its members, each
    once. *)
Theorem C94_group order pretty items s name : arbitrary order -> (name = None \/ name = Some ""%string) ->
  item_label order pretty (Group name items) = Ok s ->
  exists l, NoDup l /\ (forall x, In x l <-> exists i, In i items /\ item_label order pretty i = Ok x) /\ s = listed l.
Proof. exact (group_label order pretty items s name). Qed.
Print Assumptions C94_group.
Definition kitchen := Group None [Meter (mkMeter None false [fridge 1 false]); Meter (mkMeter (Some "lights"%string) false []); Meter (mkMeter None false [fridge 2 false]); Group (Some "sockets"%string) []].
Example C94_group_case : arbitrary (fun l => l) /\ item_label (fun l => l) None kitchen = Ok "Lights, Fridge, sockets"%string /\
  item_label (fun l => l) (Some true) kitchen = Ok "Lights, Fridge, Sockets"%string.
Proof. split; [intros l; reflexivity|]. split; reflexivity. Qed.
(** It is not the same in every session: the order of a set of strings differs
    from one to the next. *)
Theorem C94_order_refuted : exists o o' g s s', arbitrary o /\ arbitrary o' /\
  item_label o (Some true) g = Ok s /\ item_label o' (Some true) g = Ok s' /\ s <> s'.
Proof.
  exists (fun l => l), (@rev string), kitchen, "Lights, Fridge, Sockets"%string, "Sockets, Fridge, Lights"%string.
  split; [intros l; reflexivity|]. split; [intros l; symmetry; apply Permutation_rev|]. split; [reflexivity|]. split; [reflexivity|discriminate].
Qed.
Print Assumptions C94_order_refuted.

(** [get_labels] gives the labels of the meters asked for, in their order. *)
Theorem C94_labels {K} order (lookup : K -> res item) pretty ids ls :
  get_labels order lookup pretty ids = Ok ls <-> Forall2 (fun i l => exists it, lookup i = Ok it /\ item_label order (Some pretty) it = Ok l) ids ls.
Proof. exact (labels_of order lookup pretty ids ls). Qed.
Print Assumptions C94_labels.

(** The only failures: an appliance without instance (pretty), a meter whose
    dominant appliance has no type. *)
Theorem C94_fails pretty a m e :
  (appliance_label pretty a = Err e <-> pretty = true /\ a_instance a = None /\ e = TypeError) /\
  (meter_label pretty m = Err e <->
   pretty = true /\ (m_name m = None \/ m_name m = Some ""%string) /\ m_site m = false /\
   exists a, dominant_appliance m = Some a /\ (a_type a = None /\ e = TypeError \/ a_type a = Some ""%string /\ e = IndexError)).
Proof. exact (conj (appliance_fails pretty a e) (meter_fails pretty m e)). Qed.
Print Assumptions C94_fails.
Example C94_fails_case : appliance_label true (mkAppl (Some "tv"%string) None None false) = Err TypeError /\ 
  meter_label true (mkMeter None false [mkAppl None (Some 1%Z) None false]) = Err TypeError.
Proof. split; reflexivity. Qed.

(** The original name is told of appliances of type "unknown", and of no others: their full label is the type
    and the instance alone. *)
Theorem C94_original a :
  (a_type a <> Some "unknown"%string -> appliance_label false a =
     Ok ("(" ++ match a_type a with None => "None" | Some t => repr t end ++ ", " ++ match a_instance a with None => "None" | Some n => str_int n end ++ ")")%string) /\
  (a_type a = Some "unknown"%string -> forall pretty s, appliance_label pretty a = Ok s ->
     exists label, s = (label ++ ", original name = " ++ match a_original a with None => "None" | Some o => o end)%string).
Proof. exact (label_original a). Qed.
Print Assumptions C94_original.
Example C94_original_case : appliance_label false (mkAppl None None (Some "plug"%string) false) = Ok "(None, None)"%string /\
  appliance_label true (mkAppl (Some "unknown"%string) (Some 1%Z) (Some "plug"%string) false) = Ok "Unknown, original name = plug"%string.
Proof. split; reflexivity. Qed.
