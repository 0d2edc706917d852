(** C64: when the appliances of a meter count as on. *)
From Verif Require Import Base ActivationsModel ActivationsSpec OnModel OnSpec OnProofs.
Open Scope Z_scope.

(** An appliance's threshold is its own, else its nominal power when on, else
    that of its type, else 10. *)
Theorem C64_appliance types a t : appliance_threshold types a = Ok t <-> has_threshold types a t.
Proof. exact (appliance_thm types a t). Qed.
Print Assumptions C64_appliance.

(** The threshold of a meter is the smallest of those of its appliances (10
    without appliances), and an error exactly if one has none. *)
Theorem C64_meter types appliances t : meter_threshold types appliances = Ok t ->
  (appliances = [] /\ t = 10) \/
  (smallest (fun u => exists a, In a appliances /\ has_threshold types a u) t /\ forall a, In a appliances -> exists u, has_threshold types a u).
Proof. exact (least_thm types appliances t). Qed.
Print Assumptions C64_meter.
Theorem C64_unknown types appliances e : meter_threshold types appliances = Err e <->
  e = KeyError /\ exists a, In a appliances /\ forall u, ~ has_threshold types a u.
Proof. exact (threshold_error types appliances e). Qed.
Print Assumptions C64_unknown.

(** Attaching further appliances to a meter that has some never raises the
    threshold: what counted as on still does. *)
Theorem C64_more types l l' t t' : l <> [] -> (forall a, In a l -> In a l') ->
  meter_threshold types l = Ok t -> meter_threshold types l' = Ok t' -> t' <= t.
Proof. exact (threshold_mono types l l' t t'). Qed.
Print Assumptions C64_more.

(** The durations a meter uses are the longest its appliances' types ask for,
    0 if none does; an unknown type is an error. *)
Theorem C64_durations attr types appliances : attr = ty_min_on \/ attr = ty_min_off ->
  (Forall (known types) appliances -> exists t, longest attr types appliances = Ok t /\
    ((t = 0 /\ forall v, ~ some_type_says attr types appliances v) \/ largest (some_type_says attr types appliances) t)) /\
  (~ Forall (known types) appliances -> longest attr types appliances = Err KeyError).
Proof. exact (fun _ => longest_thm attr types appliances). Qed.
Print Assumptions C64_durations.

(** [when_on] says of every reading, chunk by chunk and row by row, whether it
    is there and at least the threshold. *)
Theorem C64_when_on types appliances given chunks out : when_on types appliances given chunks = (out, None) ->
  exists threshold, or_default given (meter_threshold types appliances) = Ok threshold /\
    Forall2 (Forall2 (fun s r => fst r = fst s /\ (snd r = true <-> exists v, snd s = Some v /\ threshold <= v))) chunks out.
Proof. exact (when_on_thm types appliances given chunks out). Qed.
Print Assumptions C64_when_on.

(** The activations of a meter are those of its chunks, in order, with the
    meter's threshold and durations unless given; they are found whenever the
    types of the appliances are known. *)
Theorem C64_activations types appliances min_off min_on border threshold chunks out : Forall time_ordered chunks ->
  meter_activations types appliances min_off min_on border threshold chunks = Ok out ->
  exists thr moff mon outs, or_default threshold (meter_threshold types appliances) = Ok thr /\ or_default min_off (min_off_duration types appliances) = Ok moff /\
    or_default min_on (min_on_duration types appliances) = Ok mon /\ out = concat outs /\
    Forall2 (fun c o => exists l, on_periods thr c moff l /\ report c mon border l o) chunks outs.
Proof. exact (meter_activations_thm types appliances min_off min_on border threshold chunks out). Qed.
Print Assumptions C64_activations.
Theorem C64_activations_found types appliances min_off min_on border threshold chunks : Forall time_ordered chunks -> Forall (known types) appliances ->
  exists out, meter_activations types appliances min_off min_on border threshold chunks = Ok out.
Proof. exact (meter_activations_works types appliances min_off min_on border threshold chunks). Qed.
Print Assumptions C64_activations_found.

(** The vampire power is the smallest reading, NaN if there is none. *)
Theorem C64_vampire l : (forall v, vampire_power (Some l) = Ok (Some v) <-> smallest (fun u => In (Some u) (map snd l)) v) /\
  (vampire_power (Some l) = Ok None <-> forall u, ~ In (Some u) (map snd l)).
Proof. exact (vampire_thm l). Qed.
Print Assumptions C64_vampire.

(** A kettle of a known type, a lamp that says when it is on, and a fridge. *)
Definition C64_types (n : nat) : option atype :=
  match n with
  | 0%nat => Some {| ty_threshold := Some 2000; ty_min_on := Some 12; ty_min_off := None |}
  | 1%nat => Some {| ty_threshold := None; ty_min_on := Some 6; ty_min_off := Some 30 |}
  | _ => None
  end.
Definition C64_kettle := {| a_type := 0; a_threshold := None; a_nominal := None |}.
Definition C64_lamp := {| a_type := 7; a_threshold := None; a_nominal := Some (Some 20) |}.
Definition C64_fridge := {| a_type := 1; a_threshold := None; a_nominal := Some None |}.
Example C64_thresholds : meter_threshold C64_types [C64_kettle] = Ok 2000 /\ meter_threshold C64_types [C64_kettle; C64_lamp] = Ok 20 /\
  meter_threshold C64_types [C64_kettle; C64_fridge] = Ok 10 /\ meter_threshold C64_types [] = Ok 10.
Proof. repeat split. Qed.
Example C64_known : Forall (known C64_types) [C64_kettle; C64_fridge] /\ min_on_duration C64_types [C64_kettle; C64_fridge] = Ok 12 /\
  min_off_duration C64_types [C64_kettle; C64_fridge] = Ok 30 /\ min_on_duration C64_types [C64_lamp] = Err KeyError.
Proof. repeat split; repeat constructor; discriminate. Qed.
Definition C64_chunk : list sample := [(0, Some 0); (6, Some 0); (12, Some 2100); (18, None); (24, Some 2000); (30, Some 3)].
Example C64_on : when_on C64_types [C64_kettle] None [C64_chunk] = ([[(0, false); (6, false); (12, true); (18, false); (24, true); (30, false)]], None).
Proof. reflexivity. Qed.
Example C64_vampire_ex : vampire_power (Some C64_chunk) = Ok (Some 0).
Proof. reflexivity. Qed.

(** Without any data the vampire power is an AttributeError, not NaN. *)
Theorem C64_vampire_refuted : vampire_power None = Err AttributeError.
Proof. reflexivity. Qed.
Print Assumptions C64_vampire_refuted.

(** The activations of a meter depend on the chunks: one that lies across the
    boundary of two chunks is lost although the data are complete. *)
Theorem C64_chunks_refuted : exists a b act, time_ordered (a ++ b) /\
  meter_activations C64_types [C64_kettle] (Some 0) (Some 0) 0 None [a ++ b] = Ok [act] /\
  meter_activations C64_types [C64_kettle] (Some 0) (Some 0) 0 None [a; b] = Ok [].
Proof.
  exists [(0, Some 0); (6, Some 2100)], [(12, Some 2100); (18, Some 0)], [(0, Some 0); (6, Some 2100); (12, Some 2100)]. split; [|split; reflexivity].
  intros i j x y H Hi Hj. do 4 (destruct i as [|i]; [do 4 (destruct j as [|j]; [injection Hi as <-; injection Hj as <-; cbn; lia|]); destruct j; discriminate|]). destruct i; discriminate.
Qed.
Print Assumptions C64_chunks_refuted.
