(** C24, C25, C26: requirements, clipping, AC types. *)
From Verif Require Import Base TimeFrameModel StoreModel EnergyModel PipelineModel PipelineSpec PipelineProofs.
Open Scope Z_scope.

(** ** C24 *)

(** A node's requirements are accepted exactly when every end point of the
    requirements tree is present upstream with the required value. *)
Theorem C24_sound_complete : forall state items, well_formed state ->
  (check_requirements state (Dict items) = None <-> all_met state (Dict items)).
Proof. exact check_iff. Qed.
Print Assumptions C24_sound_complete.

(** The list names exactly the requirements that are not met. *)
Theorem C24_messages : forall state items l, well_formed state -> find_unsatisfied state (Dict items) = Ok l ->
  forall m, In m l <-> reports state (Dict items) m.
Proof. exact messages_exact. Qed.
Print Assumptions C24_messages.

(** Otherwise UnsatisfiedRequirementsError is raised, except that TypeError is
    raised iff a dictionary is required where upstream has a plain value. *)
Theorem C24_raises : forall state items e, well_formed state -> check_requirements state (Dict items) = Some e ->
  (e = UnsatisfiedRequirementsError /\ ~ clash state (Dict items)) \/ (e = TypeError /\ clash state (Dict items)).
Proof. exact check_raises. Qed.
Print Assumptions C24_raises.

Definition ex_state := Dict [(1, Dict [(2, Atom 7); (3, Atom 8)]); (4, Atom 9)]%nat.
Definition ex_req := [(1, Dict [(3, AnyValue); (2, Atom 6); (5, Dict [(6, Atom 1)])]); (4, Atom 9)]%nat.
Example C24_example : well_formed ex_state /\
  find_unsatisfied ex_state (Dict ex_req) = Ok [OtherValue 2%nat (Atom 6) (Atom 7); NotInState 5%nat (Dict [(6%nat, Atom 1)])] /\
  check_requirements ex_state (Dict [(1%nat, Dict [(2%nat, Atom 7)])]) = None /\
  check_requirements ex_state (Dict [(4%nat, Dict [(2%nat, Atom 7)])]) = Some TypeError.
Proof.
  split; [|repeat split].
  assert (K : forall a b : nat, a <> b -> NoDup [a; b]).
  { intros a b H. constructor; [intros [E|[]]; congruence|]. constructor; [intros []|constructor]. }
  constructor; [apply K; discriminate|]. intros k v [[= <- <-]|[[= <- <-]|[]]]; [|constructor].
  constructor; [apply K; discriminate|]. intros k v [[= <- <-]|[[= <- <-]|[]]]; constructor.
Qed.

(** ** C25 *)

(** Every value of a column with both limits becomes the nearest value within
    the limits; missing values and columns without both limits stay as they are. *)
Theorem C25_nearest_partial : forall lo hi ms columns df i r k c v l u, described_once ms ->
  nth_error df i = Some r -> nth_error columns k = Some c -> nth_error (snd r) k = Some v ->
  limit_in_force lo me_lower ms c l -> limit_in_force hi me_upper ms c u ->
  exists r' v', nth_error (clip_chunk (limits_for lo hi ms) columns df) i = Some r' /\ fst r' = fst r /\ nth_error (snd r') k = Some v' /\
    match l, u, v with
    | Some a, Some b, Some x => a <= b -> exists y, v' = Some y /\ nearest_in a b x y
    | _, _, _ => v' = v
    end.
Proof. exact clip_cell. Qed.
Print Assumptions C25_nearest_partial.

(** Timestamps, number of rows and number of cells are kept. *)
Theorem C25_shape : forall limits columns df,
  map fst (clip_chunk limits columns df) = map fst df /\
  map (fun r => length (snd r)) (clip_chunk limits columns df) = map (fun r => length (snd r)) df.
Proof. exact clip_keeps_shape. Qed.
Print Assumptions C25_shape.

(** Values already in range do not change; clipping preserves order. *)
Theorem C25_in_range : forall lo hi x, lo <= x <= hi -> clip_value lo hi (Some x) = Some x.
Proof. exact clip_in_range. Qed.
Print Assumptions C25_in_range.

Theorem C25_monotone : forall lo hi x y x' y', x <= y -> clip_value lo hi (Some x) = Some x' -> clip_value lo hi (Some y) = Some y' -> x' <= y'.
Proof. exact clip_monotone. Qed.
Print Assumptions C25_monotone.

(** Clipping twice is clipping once; clipping piece by piece is clipping the whole. *)
Theorem C25_idempotent : forall limits columns df, clip_chunk limits columns (clip_chunk limits columns df) = clip_chunk limits columns df.
Proof. exact clip_chunk_twice. Qed.
Print Assumptions C25_idempotent.

Theorem C25_chunks : forall limits columns a b, clip_chunk limits columns (a ++ b) = clip_chunk limits columns a ++ clip_chunk limits columns b.
Proof. exact clip_chunk_app. Qed.
Print Assumptions C25_chunks.

(** The energy of a meter (Clip, then TotalEnergy) is the energy of the
    clipped readings, so C15 and C16 apply to it. *)
Theorem C25_before_energy : forall limits columns msp a rows window sections n c,
  total_energy_of columns msp a (clip_process limits columns (hdf_load rows window sections n c)) =
  total_energy_of columns msp a (hdf_load (clip_chunk limits columns rows) window sections n c).
Proof. exact clip_then_energy. Qed.
Print Assumptions C25_before_energy.

Example C25_example :
  clip_chunk (limits_for None None [mkMeas (Power, Some Active) (Some 0) (Some 100)]) [(Power, Some Active); (Power, Some Reactive)]
    [(0, [Some (-5); Some (-5)]); (1, [Some 50; None]); (2, [Some 400; Some 400]); (3, [None; Some 1])] =
    [(0, [Some 0; Some (-5)]); (1, [Some 50; None]); (2, [Some 100; Some 400]); (3, [None; Some 1])] /\
  limit_in_force None me_lower [mkMeas (Power, Some Active) (Some 0) (Some 100)] (Power, Some Active) (Some 0).
Proof. split; [reflexivity|]. left. eexists. split; [left; reflexivity|]. split; reflexivity. Qed.

(** A lower limit without an upper limit is not applied. *)
Theorem C25_one_sided_refuted : exists ms c x, described_once ms /\ In (mkMeas c (Some 0) None) ms /\ x < 0 /\
  clip_chunk (limits_for None None ms) [c] [(0, [Some x])] = [(0, [Some x])].
Proof. exact one_sided. Qed.
Print Assumptions C25_one_sided_refuted.

(** ** C26 *)

(** The chosen type is available and known; a type recorded by the mains is
    chosen if one is available; among equals the best in the order active,
    apparent, reactive is chosen; KeyError iff no known type is available. *)
Theorem C26_best : forall available mains,
  match select_best_ac_type available mains with
  | Ok a => In a available /\ (exists k, a = Known k) /\
            (forall b, In b available -> (exists k, b = Known k) ->
               match mains with
               | Some m => (In b m -> In a m) /\ ((In a m <-> In b m) -> ~ better b a)
               | None => ~ better b a
               end)
  | Err e => e = KeyError /\ forall k, ~ In (Known k) available
  end.
Proof. exact best_outcome. Qed.
Print Assumptions C26_best.

(** Only the sets of names matter. *)
Theorem C26_set_only : forall available available' mains mains', (forall x, In x available <-> In x available') ->
  match mains, mains' with Some m, Some m' => forall x, In x m <-> In x m' | None, None => True | _, _ => False end ->
  select_best_ac_type available mains = select_best_ac_type available' mains'.
Proof. exact best_set_only. Qed.
Print Assumptions C26_set_only.

Example C26_example :
  select_best_ac_type [Known Reactive; Known Active] (Some [Known Reactive; OtherName 3]) = Ok (Known Reactive) /\
  select_best_ac_type [Known Reactive; Known Active] (Some [Known Apparent]) = Ok (Known Active) /\
  select_best_ac_type [OtherName 1] (Some [Known Apparent]) = Err KeyError.
Proof. repeat split. Qed.
