(** C39: Hart's pairing of transitions; C45: assignment of powers
    (nilmtk/disaggregate/hart_85.py). *)
From Verif Require Import Base HartModel HartSpec HartProofs HartAssignProofs.
From Coq Require Import QArith Qabs Lqa.
Open Scope nat_scope.

(** Pairing never raises, and what it reports are pairs of an ON transition and
    a later transition of the stream that cancels it; no transition of the
    stream is used twice. *)
Theorem C39_pairs column size min_tol percent large n events b :
  new_buffer column size min_tol percent large n = Ok b -> Forall (fun e => length (snd e) = n) events ->
  exists pairs P, pair column size min_tol percent large n events = Ok pairs /\
    Forall2 (is_pair events) P pairs /\ Forall (fun p => fst p < snd p) P /\ NoDup (used P) /\
    Forall (fun q => on_off min_tol percent large (fst q) (snd q)) pairs.
Proof. exact (pairs_thm column size min_tol percent large n events b). Qed.
Print Assumptions C39_pairs.

(** At any time (after any stream) the buffer holds at most [size] transitions,
    and no two unmatched ones in it could be paired. *)
Theorem C39_buffer column size min_tol percent large n events b :
  new_buffer column size min_tol percent large n = Ok b -> Forall (fun e => length (snd e) = n) events ->
  exists b', run b events = Ok b' /\ length (pb_list b') <= size /\
    forall i j x y, i < j -> nth_error (pb_list b') i = Some x -> nth_error (pb_list b') j = Some y ->
      tr_matched x = false -> tr_matched y = false -> ~ on_off min_tol percent large (data x) (data y).
Proof. exact (buffer_thm column size min_tol percent large n events b). Qed.
Print Assumptions C39_buffer.

Definition ev (t : Z) (p : Q) : event := (t, [p]).

(** A kettle inside a fridge cycle, and an unmatched transition. *)
Example C39_example : exists b,
  new_buffer Active 3 100 (35 # 1000) 1000 1 = Ok b /\
  Forall (fun e : event => length (snd e) = 1) [ev 0 200; ev 1 1500; ev 2 (-1490); ev 3 400; ev 4 (-210)] /\
  pair Active 3 100 (35 # 1000) 1000 1 [ev 0 200; ev 1 1500; ev 2 (-1490); ev 3 400; ev 4 (-210)] =
    Ok [(ev 1 1500, ev 2 (-1490)); (ev 0 200, ev 4 (-210))].
Proof. eexists. split; [reflexivity|]. split; [repeat constructor|]. vm_compute. reflexivity. Qed.

(** With a full buffer and nothing to clean, the oldest transition is lost: an
    ON and its OFF are not paired. *)
Theorem C39_lost_refuted : exists size events i j a b, nth_error events i = Some a /\ nth_error events j = Some b /\ i < j /\ on_off 100 (35 # 1000) 1000 a b /\
  pair Active size 100 (35 # 1000) 1000 1 events = Ok [].
Proof.
  exists 2, [ev 0 200; ev 1 500; ev 2 900; ev 3 (-200)], 0, 3. do 2 eexists. split; [reflexivity|]. split; [reflexivity|]. split; [lia|]. split.
  - split; [exists 200%Q, []; split; [reflexivity|lra]|]. constructor; [|constructor]. left. repeat split; reflexivity.
  - vm_compute. reflexivity.
Qed.
Print Assumptions C39_lost_refuted.

(** Reactive power alone is documented as a valid input, but raises. *)
Theorem C39_reactive_refuted size min_tol percent large events : pair Reactive size min_tol percent large 1 events = Err AttributeError.
Proof. reflexivity. Qed.
Print Assumptions C39_reactive_refuted.

(** ** C45 *)

(** Terminates without raising; one power per sample, each 0 or the centroid. *)
Theorem C45_values {P} (zero c : P) values prev : exists out, assign_power zero c values prev = Ok out /\
  length out = length values /\ forall x, In x out -> x = zero \/ x = c.
Proof. exact (assign_values zero c values prev). Qed.
Print Assumptions C45_values.

(** At a sample without event, other than the last one, the power is the
    centroid if the last event was "on" (or none and the given state is on), and
    0 otherwise. *)
Theorem C45_between_partial {P} (zero c : P) values prev k v : nth_error values k = Some v -> ~ known v -> S k < length values ->
  exists out, assign_power zero c values prev = Ok out /\
    (on_before values prev k -> nth_error out k = Some c) /\ (~ on_before values prev k -> nth_error out k = Some zero).
Proof. exact (assign_between zero c values prev k v). Qed.
Print Assumptions C45_between_partial.

(** At a sample with an on event the power is still that of the state before. *)
Theorem C45_on_event {P} (zero c : P) values prev k : nth_error values k = Some 1%Z -> S k < length values ->
  exists out, assign_power zero c values prev = Ok out /\
    (0 < k -> on_before values prev k -> nth_error out k = Some c) /\ (~ on_before values prev k -> nth_error out k = Some zero).
Proof. exact (assign_at_on zero c values prev k). Qed.
Print Assumptions C45_on_event.

(** At a sample with an off event the power is 0 unless the sample before was an
    on event. *)
Theorem C45_off_event {P} (zero c : P) values prev k : nth_error values k = Some 0%Z ->
  exists out, assign_power zero c values prev = Ok out /\
    (nth_error out k = Some c -> zero <> c -> exists p, k = S p /\ nth_error values p = Some 1%Z).
Proof. exact (assign_at_off zero c values prev k). Qed.
Print Assumptions C45_off_event.

(** The last sample is 0 unless the appliance was switched on just before. *)
Theorem C45_last {P} (zero c : P) values prev k : S k = length values -> zero <> c ->
  exists out, assign_power zero c values prev = Ok out /\
    (nth_error out k = Some c -> exists p, k = S p /\ nth_error values p = Some 1%Z /\ (p = 0 \/ ~ on_before values prev p)).
Proof. exact (assign_last zero c values prev k). Qed.
Print Assumptions C45_last.

Example C45_example : assign_power 0%Z 60%Z [-1; 1; -1; -1; 0; -1; 1; -1; -1]%Z (-1)%Z = Ok [0; 0; 60; 60; 0; 0; 0; 60; 0]%Z /\
  ~ known (-1)%Z /\ on_before [-1; 1; -1; -1; 0; -1; 1; -1; -1]%Z (-1)%Z 3.
Proof.
  split; [reflexivity|]. split; [intros [H|H]; discriminate|]. left. split; [left; reflexivity|]. exists 1. split; [lia|]. split; [reflexivity|].
  intros m v Hm Hv. assert (m = 2) by lia. subst m. injection Hv as <-. intros [H|H]; discriminate.
Qed.

(** "switching exactly as the last known event says" is false: an appliance that
    is on has power 0 at the last sample, and an off event right after an on
    event does not switch off. *)
Theorem C45_last_refuted : exists values, on_before values (-1) 3 /\ nth_error values 3 = Some (-1)%Z /\ assign_power 0%Z 60%Z values (-1) = Ok [0; 0; 60; 0]%Z.
Proof.
  exists [-1; 1; -1; -1]%Z. split; [|split; reflexivity]. left. split; [left; reflexivity|]. exists 1. split; [lia|]. split; [reflexivity|].
  intros m v Hm Hv. assert (m = 2) by lia. subst m. injection Hv as <-. intros [H|H]; discriminate.
Qed.
Print Assumptions C45_last_refuted.

Theorem C45_off_refuted : exists values, nth_error values 1 = Some 0%Z /\ assign_power 0%Z 60%Z values (-1) = Ok [0; 60; 0; 0]%Z.
Proof. exists [1; 0; -1; -1]%Z. split; reflexivity. Qed.
Print Assumptions C45_off_refuted.
