(** Vocabulary for the devices of the data sets opened in a process. *)
From Verif Require Import Base TimeFrameModel StoreModel ResultsModel GoodSectionsModel DeviceModel.
Import List. Open Scope list_scope. Open Scope Z_scope.

(** Opening the data set gets to a first building (it may fail later). *)
Definition begun (d : res dataset) : Prop := exists ds h bs, d = Ok ds /\ ds_buildings ds = Ok h :: bs.
(** The metadata of the data set describe the device model [k]. *)
Definition describes (d : res dataset) (k : nat) (v : device) : Prop :=
  exists ds l, d = Ok ds /\ ds_devices ds = Some l /\ In (k, v) l.
(** The metadata have one entry for each device model. *)
Definition proper (d : res dataset) : Prop :=
  forall ds l, d = Ok ds -> ds_devices ds = Some l -> NoDup (map fst l).

(** [v] is the description of [k] in the last data set of [h] that has one. *)
Definition latest (h : list (res dataset)) (k : nat) (v : device) : Prop :=
  exists before d after, h = before ++ d :: after /\ begun d /\ describes d k v /\
    forall d' v', In d' after -> begun d' -> ~ describes d' k v'.

(** All that a meter says with the devices [reg] it says with [own] too. *)
Definition same_answers (m : meter) (reg own : registry) : Prop :=
  sample_period reg m = sample_period own m /\
  available_columns reg m = available_columns own m /\
  (forall period, fill_limit reg m period = fill_limit own m period) /\
  (forall chunks, good_sections reg m chunks = good_sections own m chunks).

(** The least number of periods [p] that together are at least [mx] long. *)
Definition least_cover (mx p : Z) (n : nat) : Prop := mx <= Z.of_nat n * p < mx + p.
