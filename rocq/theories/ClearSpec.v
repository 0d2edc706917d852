(** Vocabulary for clearing the cache. *)
From Coq Require Import Ascii String.
From Verif Require Import Base TimeFrameModel StoreModel KeyModel ConvModel ConvSpec RemoveModel RemoveSpec CacheModel CacheSpec ClearModel.
Import List.
Open Scope list_scope.

(** The meters in use of a meter or group, at any depth; all its meters. *)
Inductive enabled : member -> meter_id -> Prop :=
  | enabled_meter : forall m, enabled (Meter m) m
  | enabled_group : forall l d x m, In x l -> enabled x m -> enabled (Group l d) m.
Inductive belongs : member -> meter_id -> Prop :=
  | belongs_meter : forall m, belongs (Meter m) m
  | belongs_group : forall l d x m, In x (l ++ d) -> belongs x m -> belongs (Group l d) m.

(** The same building and number, perhaps of two data sets. *)
Definition alike (m m' : meter_id) : Prop := id_building m = id_building m' /\ id_instance m = id_instance m'.

(** A name of a statistic: not empty, without a slash. *)
Definition stat_name (s : str) : Prop := s <> [] /\ ~ In slash s.

Section Spec.
Context {A : Type}.
Definition targets (o : op A) (m : meter_id) : Prop :=
  match o with Store _ _ _ => False | Clear x => enabled x m | ClearAll l => exists x, In x l /\ enabled x m end.
(** The operation clears what is cached for [m]. *)
Definition clears (o : op A) (m : meter_id) : Prop := exists m', targets o m' /\ alike m' m.
(** Meters have numbers, statistics names. *)
Definition proper (o : op A) : Prop :=
  (forall m, targets o m -> proper_id m) /\ match o with Store m s _ => proper_id m /\ stat_name s | _ => True end.

(** The rows stored by a history for the building and number of [m] and a statistic. *)
Inductive stored (m : meter_id) (s : str) : list (op A) -> list (sample A) -> Prop :=
  | stored_none : stored m s [] []
  | stored_here : forall m' rows h l, alike m' m -> stored m s h l -> stored m s (Store m' s rows :: h) (rows ++ l)
  | stored_other : forall o h l, (forall m' rows, o = Store m' s rows -> ~ alike m' m) -> stored m s h l -> stored m s (o :: h) l.
End Spec.
