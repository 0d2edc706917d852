(** C44: Appliance.matches and ElecMeter.matches are conjunctive. *)
From Verif Require Import Base MatchModel MatchSpec MatchProofs.
From Coq Require Import Permutation.
Open Scope nat_scope.

(** A concrete world: fridge (1) is a known type with the synonym refrigerator (2),
    category cold (3), controls thermostat (4) and switch (5). *)
Definition ex_types (v : value) : option app_type :=
  match v with Atom 1 => Some (mkType [(SynonymsN, ListV [2]); (Word 9, ListV [4; 5])] (Some [[3]])) | _ => None end.
Definition ex_fridge : appliance := mkApp [(TypeN, Atom 1); (InstanceN, Atom 1); (Word 7, Atom 70)].
Definition ex_odd : appliance := mkApp [(TypeN, Atom 50); (InstanceN, Atom 1); (Word 7, Atom 70)].
Definition ex_meter : meter := mkMeter (Atom 3) (Atom 1) (Atom 8) [(Word 6, Atom 60); (Method 0, Atom 2)] (Ok [(Word 5, ListV [1; 2])]) [ex_fridge].

(** A query holds iff each of its pairs holds on its own; it is refused iff one of
    its pairs is; otherwise it is answered with False. *)
Theorem C44_meter_conjunctive : forall (m : meter) (q : dict),
  (meter_matches m (QDict q) = Ok true <-> forall k v, In (k, v) q -> meter_matches m (QDict [(k, v)]) = Ok true) /\
  (meter_matches m (QDict q) = Ok false <-> (forall k v, In (k, v) q -> exists b, meter_matches m (QDict [(k, v)]) = Ok b) /\ exists k v, In (k, v) q /\ meter_matches m (QDict [(k, v)]) = Ok false) /\
  ((exists e, meter_matches m (QDict q) = Err e) <-> exists k v e, In (k, v) q /\ meter_matches m (QDict [(k, v)]) = Err e).
Proof. intros m q. exact (conj_thm (meter_key m) q). Qed.
Print Assumptions C44_meter_conjunctive.

Theorem C44_appliance_conjunctive : forall (types : value -> option app_type) (synonyms : bool) (a : appliance) (q : dict),
  (app_matches types synonyms a (QDict q) = Ok true <-> forall k v, In (k, v) q -> app_matches types synonyms a (QDict [(k, v)]) = Ok true) /\
  (app_matches types synonyms a (QDict q) = Ok false <-> (forall k v, In (k, v) q -> exists b, app_matches types synonyms a (QDict [(k, v)]) = Ok b) /\ exists k v, In (k, v) q /\ app_matches types synonyms a (QDict [(k, v)]) = Ok false) /\
  ((exists e, app_matches types synonyms a (QDict q) = Err e) <-> exists k v e, In (k, v) q /\ app_matches types synonyms a (QDict [(k, v)]) = Err e).
Proof. intros types s a q. exact (conj_thm (app_key types s a) q). Qed.
Print Assumptions C44_appliance_conjunctive.
Example C44_conjunctive_example :
  app_matches ex_types true ex_fridge (QDict [(TypeN, Atom 2); (Word 9, Atom 5); (CategoryN, Atom 3)]) = Ok true /\
  app_matches ex_types true ex_fridge (QDict [(TypeN, Atom 2); (Word 9, Atom 6); (CategoryN, Atom 3)]) = Ok false /\
  app_matches ex_types false ex_fridge (QDict [(TypeN, Atom 2)]) = Ok false /\
  app_matches ex_types true ex_fridge (QDict [(TypeN, Atom 7); (Word 8, Atom 6)]) = Err KeyError /\
  meter_matches ex_meter (QDict [(BuildingN, Atom 1); (Word 5, Atom 2); (Word 6, Atom 60)]) = Ok true.
Proof. repeat split; reflexivity. Qed.

(** What one pair means: for a meter its identifier, metadata and device say so. *)
Theorem C44_meter_meaning : forall (m : meter) (k : name) (v : value), meter_matches m (QDict [(k, v)]) = Ok true <-> meter_has m k v.
Proof. exact meter_key_true. Qed.
Print Assumptions C44_meter_meaning.

(** For an appliance: its identifier, metadata and known type say so. *)
Theorem C44_appliance_meaning : forall (types : value -> option app_type) (synonyms : bool) (a : appliance) (k : name) (v : value),
  app_matches types synonyms a (QDict [(k, v)]) = Ok true <-> app_has types synonyms a k v /\ app_knows types synonyms a k.
Proof.
  intros types s a k v. split.
  - intros H. split; [apply app_key_true; exact H|]. apply (app_key_knows types s a k v). unfold app_matches in H. rewrite run_single in H. eauto.
  - intros [H K]. apply (app_key_knows types s a k v) in K. destruct K as [b E]. assert (E' : app_matches types s a (QDict [(k, v)]) = Ok b) by (unfold app_matches; rewrite run_single; exact E). rewrite (app_key_has _ _ _ _ _ _ H E') in E'. exact E'.
Qed.
Print Assumptions C44_appliance_meaning.
Example C44_meaning_example : meter_has ex_meter (Word 5) (Atom 2) /\ app_has ex_types true ex_fridge TypeN (Atom 2) /\ app_knows ex_types true ex_fridge TypeN.
Proof.
  repeat split.
  - eapply mh_device; try discriminate; try reflexivity. right. exists [1; 2], 2. cbn. auto.
  - eapply ah_synonym; try reflexivity. cbn. auto.
  - eapply ak_type; reflexivity.
Qed.

(** The order of the pairs does not matter, except for which exception is raised. *)
Theorem C44_order : forall (types : value -> option app_type) (synonyms : bool) (a : appliance) (m : meter) (q q' : dict), Permutation q q' ->
  same_outcome (app_matches types synonyms a (QDict q)) (app_matches types synonyms a (QDict q')) /\
  same_outcome (meter_matches m (QDict q)) (meter_matches m (QDict q')).
Proof. intros types s a m q q' H. split; [exact (perm_thm (app_key types s a) q q' H)|exact (perm_thm (meter_key m) q q' H)]. Qed.
Print Assumptions C44_order.

(** The empty query matches everything, and what is not a dictionary is refused. *)
Theorem C44_empty : forall (types : value -> option app_type) (synonyms : bool) (a : appliance) (m : meter) (q : query), q = QEmpty \/ q = QDict [] ->
  app_matches types synonyms a q = Ok true /\ meter_matches m q = Ok true.
Proof. intros types s a m q [->| ->]; split; reflexivity. Qed.
Print Assumptions C44_empty.
Theorem C44_not_a_dictionary : forall (types : value -> option app_type) (synonyms : bool) (a : appliance) (m : meter),
  app_matches types synonyms a QOther = Err TypeError /\ meter_matches m QOther = Err TypeError.
Proof. split; reflexivity. Qed.
Print Assumptions C44_not_a_dictionary.

(** An unknown key is always reported, wherever it stands and whatever the other
    pairs say, and nothing else is. *)
Theorem C44_meter_unknown : forall (m : meter) (q : dict), (forall e, m_device m = Err e -> e = KeyError) ->
  (meter_matches m (QDict q) = Err KeyError <-> exists k v, In (k, v) q /\ ~ meter_knows m k) /\
  (forall e, meter_matches m (QDict q) = Err e -> e = KeyError).
Proof. exact meter_unknown. Qed.
Print Assumptions C44_meter_unknown.
Theorem C44_appliance_unknown : forall (types : value -> option app_type) (synonyms : bool) (a : appliance) (q : dict),
  ((exists e, app_matches types synonyms a (QDict q) = Err e) <-> exists k v, In (k, v) q /\ ~ app_knows types synonyms a k) /\
  (forall e, app_matches types synonyms a (QDict q) = Err e -> e = KeyError \/ e = AttributeError).
Proof. intros types s a q. split; [exact (app_unknown types s a q)|exact (app_error types s a q)]. Qed.
Print Assumptions C44_appliance_unknown.
Example C44_unknown_example : (forall e, m_device ex_meter = Err e -> e = KeyError) /\ ~ meter_knows ex_meter (Word 1) /\ meter_matches ex_meter (QDict [(InstanceN, Atom 99); (Word 1, Atom 0)]) = Err KeyError.
Proof.
  split; [discriminate|]. split; [|reflexivity]. intros H. destruct H as [H|[H|[H|[(n & H)|[(v & H)|(d & v & H & H')]]]]]; try discriminate. injection H as <-. discriminate.
Qed.

(** Failures of the claim: asked about its own type, an appliance of an unrecognised type
    raises KeyError; a word of its own metadata that every namedtuple has as a method
    never matches; a type without categories raises AttributeError. *)
Theorem C44_own_type_refuted : exists (types : value -> option app_type) (a : appliance) (t : value),
  get TypeN (a_metadata a) = Some t /\ app_matches types true a (QDict [(TypeN, t)]) = Err KeyError /\ app_matches types false a (QDict [(TypeN, t)]) = Ok true.
Proof. exists ex_types, ex_odd, (Atom 50). repeat split. Qed.
Print Assumptions C44_own_type_refuted.
Theorem C44_count_refuted : exists (m : meter) (k : name) (v : value), get k (m_metadata m) = Some v /\ meter_matches m (QDict [(k, v)]) = Ok false.
Proof. exists ex_meter, (Method 0), (Atom 2). split; reflexivity. Qed.
Print Assumptions C44_count_refuted.
Theorem C44_category_refuted : exists (types : value -> option app_type) (a : appliance), app_matches types true a (QDict [(CategoryN, Atom 0)]) = Err AttributeError.
Proof. exists (fun _ => Some (mkType [] None)), ex_fridge. reflexivity. Qed.
Print Assumptions C44_category_refuted.

(** Over several appliances the order does matter: matches_appliances is True or
    raises depending on which appliance is listed first. *)
Theorem C44_appliances_order_refuted : exists (types : value -> option app_type) (m m' : meter) (q : dict),
  Permutation (m_appliances m) (m_appliances m') /\ matches_appliances types true m (QDict q) = Ok true /\ matches_appliances types true m' (QDict q) = Err KeyError.
Proof.
  exists ex_types, (mkMeter (Atom 3) (Atom 1) (Atom 8) [] (Ok []) [ex_fridge; ex_odd]), (mkMeter (Atom 3) (Atom 1) (Atom 8) [] (Ok []) [ex_odd; ex_fridge]), [(TypeN, Atom 1)].
  split; [apply perm_swap|split; reflexivity].
Qed.
Print Assumptions C44_appliances_order_refuted.
