(** C80: the devices of the data sets opened in a process. *)
From Verif Require Import Base TimeFrameModel StoreModel ResultsModel GoodSectionsModel DeviceModel DeviceSpec DeviceProofs.
Import List. Open Scope list_scope. Open Scope Z_scope.

(** Two data sets that describe device 1 differently, and one that has building
    metadata that cannot be imported. *)
Definition frame a b := mkTF (Some a) (Some b) true false (52 <=? b).
Definition d10 := mkDevice (Some 6) (Some 10) (Some [(1, Some 1)]) false.
Definition d50 := mkDevice (Some 30) (Some 50) (Some [(1, Some 2)]) false.
Definition m1 := mkMeter 1 (Some 1%nat).
Definition A := mkDataset (Some [(1%nat, d10); (2%nat, d50)]) [Ok (mkHouse [m1; mkMeter 2 (Some 2%nat)] None); Ok (mkHouse [m1] None)].
Definition B := mkDataset (Some [(1%nat, d50)]) [Ok (mkHouse [m1] None)].
Definition broken := mkDataset (Some [(1%nat, d50)]) [Ok (mkHouse [m1] None); Err KeyError].
(** Readings at 0, 6, 40, 46 and 52 seconds. *)
Definition readings : gen (chunk bool) := ([mkChunk [(0, true); (6, true); (40, true); (46, true); (52, true)] None (frame 0 52)], None).

(** The device of a meter is the one described in the data set that was opened
    last among those that describe its model; KeyError if there is none. *)
Theorem C80_latest : forall h m k, Forall proper h -> m_model m = Some k ->
  (forall v, latest h k v -> device_of (process h) m = Ok v) /\
  ((forall d v, In d h -> begun d -> ~ describes d k v) -> device_of (process h) m = Err KeyError).
Proof. exact device_latest. Qed.
Print Assumptions C80_latest.
Example C80_latest_ex : Forall proper [Ok A; Err KeyError; Ok B] /\ latest [Ok B; Ok A; Err KeyError] 1 d10.
Proof.
  split.
  - repeat constructor; intros ds l E L; try discriminate; injection E as <-; injection L as <-; cbn; repeat constructor; cbn; intuition; discriminate.
  - exists [Ok B], (Ok A), [Err KeyError]. split; [reflexivity|]. split; [eexists _, _, _; split; reflexivity|].
    split; [eexists _, _; split; [reflexivity|]; split; [reflexivity | left; reflexivity]|].
    intros d' v' [<-|[]] (ds & h & bs & E & _). discriminate.
Qed.

(** What a meter says after any history: the entries of that device; of a meter
    that names no device model, only that its sample period is unknown. *)
Theorem C80_answers : forall h m k sp mx ms o, Forall proper h -> m_model m = Some k -> latest h k (mkDevice (Some sp) (Some mx) (Some ms) o) ->
  sample_period (process h) m = Ok (Some sp) /\ available_columns (process h) m = Ok ms /\
  (forall chunks, good_sections (process h) m chunks = good_sections_of mx chunks) /\
  (0 <= mx -> forall asked p, (asked = Some p \/ asked = None /\ p = sp) -> 0 < p ->
     exists n, fill_limit (process h) m asked = Ok n /\ least_cover mx p n).
Proof. exact answers_of_latest. Qed.
Print Assumptions C80_answers.
Theorem C80_no_device : forall h m, m_model m = None ->
  sample_period (process h) m = Ok None /\ available_columns (process h) m = Err KeyError /\
  (forall chunks, good_sections (process h) m chunks = Err KeyError) /\
  (forall asked, fill_limit (process h) m asked = Err KeyError).
Proof. exact answers_without_device. Qed.
Print Assumptions C80_no_device.
Example C80_answers_ex : latest [Ok B; Ok A; Err KeyError] 1 (mkDevice (Some 6) (Some 10) (Some [(1, Some 1)]) false) /\ m_model m1 = Some 1%nat /\
  fill_limit (process [Ok B; Ok A; Err KeyError]) m1 None = Ok 2%nat /\ fill_limit (process [Ok B; Ok A; Err KeyError]) m1 (Some 3) = Ok 4%nat.
Proof. split; [exact (proj2 C80_latest_ex)|]. repeat split. Qed.

(** The property, where the data sets opened agree on the model of the meter:
    sample period, columns, filling and good sections of a meter are those of its
    own data set, whenever and however often the data sets are opened. *)
Theorem C80_own_partial : forall h ds l m, Forall proper h -> In (Ok ds) h -> begun (Ok ds) -> ds_devices ds = Some l ->
  (forall k, m_model m = Some k -> exists v, In (k, v) l /\ forall d' v', In d' h -> begun d' -> describes d' k v' -> v' = v) ->
  same_answers m (process h) l.
Proof. exact own_answers. Qed.
Print Assumptions C80_own_partial.
Example C80_own_ex : let h := [Ok B; Ok A; Err ValueError; Ok A] in let m := mkMeter 2 (Some 2%nat) in
  Forall proper h /\ In (Ok A) h /\ begun (Ok A) /\
  (forall k, m_model m = Some k -> exists v, In (k, v) [(1%nat, d10); (2%nat, d50)] /\ forall d' v', In d' h -> begun d' -> describes d' k v' -> v' = v) /\
  good_sections (process h) m readings = Ok [frame 0 52] /\ fill_limit (process h) m (Some 6) = Ok 9%nat.
Proof.
  cbn zeta. split; [|split; [right; left; reflexivity|split; [eexists _, _, _; split; reflexivity|split; [|split; reflexivity]]]].
  - repeat constructor; intros ds l E L; try discriminate; injection E as <-; injection L as <-; cbn; repeat constructor; cbn; intuition; discriminate.
  - intros k [= <-]. exists d50. split; [right; left; reflexivity|].
    intros d' v' I _ (ds & l & -> & L & J). cbn in I. intuition; try discriminate;
    match goal with H : Ok _ = Ok ds |- _ => injection H as <- end; injection L as <-; cbn in J; intuition; congruence.
Qed.

(** Not so otherwise: after any other data set that describes the model has been
    opened, even if opening it fails after its first building, a meter answers
    with the device of that data set. *)
Theorem C80_other_refuted : forall h ds other l' m k v', Forall proper h -> proper (Ok other) -> begun (Ok other) -> ds_devices other = Some l' ->
  m_model m = Some k -> In (k, v') l' -> same_answers m (process (h ++ [Ok ds] ++ [Ok other])) l'.
Proof. exact others_answers. Qed.
Print Assumptions C80_other_refuted.

(** The same meter of [A] has other sample periods, columns and good sections
    once [B] is open, and once opening [broken] has failed. *)
Theorem C80_witness_refuted :
  snd (open_dataset (Ok broken) (process [Ok A])) = Some KeyError /\
  sample_period (process [Ok A]) m1 = Ok (Some 6) /\ sample_period (process [Ok A; Ok B]) m1 = Ok (Some 30) /\
  sample_period (process [Ok A; Ok broken]) m1 = Ok (Some 30) /\
  available_columns (process [Ok A]) m1 = Ok [(1, Some 1)] /\ available_columns (process [Ok A; Ok B]) m1 = Ok [(1, Some 2)] /\
  good_sections (process [Ok A]) m1 readings = Ok [frame 0 6; frame 40 52] /\
  good_sections (process [Ok A; Ok B]) m1 readings = Ok [frame 0 52].
Proof. repeat split. Qed.
Print Assumptions C80_witness_refuted.
