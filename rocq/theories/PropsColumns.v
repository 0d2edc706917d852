(** Property theorems about the choice of columns (C27). *)
From Verif Require Import Base EnergyModel PipelineModel ColumnsModel ColumnsSpec ColumnsProofs.
Open Scope nat_scope.

(** C27: whatever is loaded for a request is exactly what the meter has and the
    request asks for, without duplicates. *)
Theorem C27_exact : forall setlist ms best p a columns, set_order setlist -> columns = None \/ columns = Some [] ->
  forall out, convert setlist ms best p a columns = Ok out -> NoDup out /\ forall c, In c out <-> wanted ms p a c.
Proof. intros setlist ms best p a columns HO HC. exact (proj1 (convert_thm setlist ms best HO p a columns HC)). Qed.
Print Assumptions C27_exact.

(** C27: a request with known names for which the meter has a column succeeds. *)
Theorem C27_found : forall setlist ms best p a columns, set_order setlist -> columns = None \/ columns = Some [] ->
  understood ms p a -> (exists c, wanted ms p a c) -> exists out, convert setlist ms best p a columns = Ok out.
Proof. intros setlist ms best p a columns HO HC. exact (proj1 (proj2 (convert_thm setlist ms best HO p a columns HC))). Qed.
Print Assumptions C27_found.

(** C27: a request that no column of the meter matches raises MeasurementError. *)
Theorem C27_nothing : forall setlist ms best p a columns, set_order setlist -> columns = None \/ columns = Some [] ->
  ac_given a || pq_given p = true -> (forall c, ~ wanted ms p a c) -> convert setlist ms best p a columns = Err MeasurementError.
Proof. intros setlist ms best p a columns HO. exact (nothing_thm setlist ms best HO p a columns). Qed.
Print Assumptions C27_nothing.

(** C27: it raises nothing else. *)
Theorem C27_error : forall setlist ms best p a columns e, set_order setlist -> columns = None \/ columns = Some [] ->
  convert setlist ms best p a columns = Err e -> e = MeasurementError.
Proof. intros setlist ms best p a columns e HO HC. exact (proj2 (proj2 (convert_thm setlist ms best HO p a columns HC)) e). Qed.
Print Assumptions C27_error.

(** C27: explicit columns are used as they are if the meter has them all, and
    cannot be combined with the other two arguments. *)
Theorem C27_columns : forall setlist ms best p a c cs, set_order setlist ->
  (ac_given a || pq_given p = true -> convert setlist ms best p a (Some (c :: cs)) = Err ValueError) /\
  (ac_given a || pq_given p = false -> incl (c :: cs) ms -> convert setlist ms best p a (Some (c :: cs)) = Ok (c :: cs)) /\
  (ac_given a || pq_given p = false -> ~ incl (c :: cs) ms -> convert setlist ms best p a (Some (c :: cs)) = Err MeasurementError).
Proof. intros setlist ms best p a c cs HO. exact (columns_thm setlist ms best HO p a c cs). Qed.
Print Assumptions C27_columns.

Definition meter1 : list measurement :=
  [(Power, Some (Known Reactive)); (Power, Some (Known Apparent)); (EnergyPQ, Some (Known Active)); (EnergyPQ, Some (Known Reactive)); (Voltage, None)].
Lemma set_order_nodup : set_order (nodup column_dec).
Proof. intros l. split; [apply NoDup_nodup|]. intros x. apply nodup_In. Qed.
Definition best_str := OtherName 0.
Example C27_met :
  convert (nodup column_dec) meter1 best_str (PqList [Power; EnergyPQ]) AcBest None = Ok [(Power, Some (Known Apparent)); (EnergyPQ, Some (Known Active))] /\
  convert (nodup column_dec) meter1 best_str (PqName Power) (AcName (Known Reactive)) None = Ok [(Power, Some (Known Reactive))] /\
  convert (nodup column_dec) meter1 best_str PqNone (AcName (Known Reactive)) (Some []) = Ok [(Power, Some (Known Reactive)); (EnergyPQ, Some (Known Reactive))] /\
  convert (nodup column_dec) meter1 best_str (PqName Power) (AcName (Known Active)) None = Err MeasurementError /\
  convert (nodup column_dec) meter1 best_str (PqName (OtherPQ 3)) AcNone None = Err MeasurementError /\
  convert (nodup column_dec) meter1 best_str PqNone AcNone (Some [(Voltage, None)]) = Ok [(Voltage, None)] /\
  understood meter1 (PqName Power) (AcName (Known Reactive)) /\ understood meter1 PqNone AcBest.
Proof.
  repeat (split; [reflexivity|]). split; (split; [exact I|]); (split; [exact I|]); (split; [intros E1 E2; try discriminate|intros [E1 E2]; discriminate]). repeat constructor.
Qed.

(** C27: with [ac_type='best'] a requested quantity that has no AC type (such as
    voltage) is dropped without an error. *)
Theorem C27_best_drops_refuted : exists setlist ms best p out, set_order setlist /\
  In (Voltage, None) ms /\ pq_wanted p Voltage /\
  convert setlist ms best p AcBest None = Ok out /\ ~ In (Voltage, None) out.
Proof.
  exists (nodup column_dec), meter1, best_str, (PqList [Power; Voltage]). eexists. split; [exact set_order_nodup|]. split; [cbn; tauto|]. split; [cbn; tauto|]. split; [reflexivity|]. cbn. intros [H|[]]. discriminate.
Qed.
Print Assumptions C27_best_drops_refuted.

(** C27: 'best' inside a list is not understood. *)
Theorem C27_best_in_list : forall setlist ms p l n, set_order setlist -> In (OtherName n) l ->
  forall out, convert setlist ms (OtherName n) p (AcList l) None <> Ok out.
Proof.
  intros setlist ms p l n HO HI out E. unfold convert in E. destruct l as [|x l]; [destruct HI|]. cbn [ac_given orb negb] in E.
  destruct (ac_cols_ok setlist ms (OtherName n) HO (AcList (x :: l))) as [(V & _)|(_ & E2)]; [discriminate|reflexivity| |rewrite E2 in E; discriminate].
  cbn [valid_ac] in V. rewrite Forall_forall in V. exact (V _ HI).
Qed.
Print Assumptions C27_best_in_list.
Example C27_best_in_list_met : convert (nodup column_dec) meter1 best_str (PqName Power) (AcList [best_str]) None = Err MeasurementError.
Proof. reflexivity. Qed.
