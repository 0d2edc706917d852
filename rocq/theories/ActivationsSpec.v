(** Vocabulary for appliance activations. *)
From Verif Require Import Base ActivationsModel.
Open Scope nat_scope.

(** The reading at position [i] is at or above the threshold / is not (NaN
    counts as not). *)
Definition on_at (threshold : Z) (chunk : list sample) (i : nat) : Prop :=
  exists t v, nth_error chunk i = Some (t, Some v) /\ (threshold <= v)%Z.
Definition off_at (threshold : Z) (chunk : list sample) (i : nat) : Prop :=
  exists s, nth_error chunk i = Some s /\ ~ on_at threshold chunk i.

(** Time from position [i] to position [j] is [d]. *)
Definition lasts (chunk : list sample) (i j : nat) (d : Z) : Prop :=
  exists a b, nth_error chunk i = Some a /\ nth_error chunk j = Some b /\ d = (fst b - fst a)%Z.

(** [runs] are the on-periods (first on position, first off position after),
    off-periods shorter than [min_off] being bridged:
    - each begins and ends with a switch,
    - inside, every off-period lasts less than [min_off],
    - consecutive ones are separated by one off-period of at least [min_off],
    - every on reading that has an off reading somewhere before and one
      somewhere after lies in one. *)
Definition switched (threshold : Z) (chunk : list sample) (r : nat * nat) : Prop :=
  let (i, j) := r in 0 < i /\ i < j /\ off_at threshold chunk (i - 1) /\ on_at threshold chunk i /\ on_at threshold chunk (j - 1) /\ off_at threshold chunk j.
Definition off_between (threshold : Z) (chunk : list sample) (p q : nat) : Prop := forall k, p <= k < q -> off_at threshold chunk k.
Definition bridged (threshold : Z) (chunk : list sample) (min_off : Z) (r : nat * nat) : Prop :=
  forall p q d, fst r < p -> p < q -> q < snd r -> on_at threshold chunk (p - 1) -> off_between threshold chunk p q -> on_at threshold chunk q ->
    lasts chunk p q d -> (d < min_off)%Z.
Fixpoint apart (threshold : Z) (chunk : list sample) (min_off : Z) (l : list (nat * nat)) : Prop :=
  match l with
  | a :: (b :: _) as tl => snd a < fst b /\ off_between threshold chunk (snd a) (fst b) /\
      (exists d, lasts chunk (snd a) (fst b) d /\ (min_off <= d)%Z) /\ apart threshold chunk min_off tl
  | _ => True
  end.
Definition on_periods (threshold : Z) (chunk : list sample) (min_off : Z) (l : list (nat * nat)) : Prop :=
  Forall (switched threshold chunk) l /\ Forall (bridged threshold chunk min_off) l /\ apart threshold chunk min_off l /\
  forall k i j, i < k < j -> off_at threshold chunk i -> on_at threshold chunk k -> off_at threshold chunk j ->
    exists r, In r l /\ fst r <= k < snd r.

(** The rows reported for an on-period: [border + 1] rows before it and
    [border] rows after it, as far as they exist. *)
Definition rows_of (chunk : list sample) (border : nat) (r : nat * nat) (rows : list sample) : Prop :=
  exists before after, chunk = before ++ rows ++ after /\
    length before = fst r - (1 + border) /\ length rows = Nat.min (length chunk) (snd r + border) - (fst r - (1 + border)).

(** An on-period is reported iff it lasts at least [min_on] and no reported
    row is missing. *)
Definition reported (chunk : list sample) (min_on : Z) (border : nat) (r : nat * nat) (rows : list sample) : Prop :=
  rows_of chunk border r rows /\ (exists d, lasts chunk (fst r) (snd r) d /\ (min_on <= d)%Z) /\ (forall s, In s rows -> snd s <> None).

Inductive report (chunk : list sample) (min_on : Z) (border : nat) : list (nat * nat) -> list (list sample) -> Prop :=
  | report_nil : report chunk min_on border [] []
  | report_yes r l rows out : reported chunk min_on border r rows -> report chunk min_on border l out -> report chunk min_on border (r :: l) (rows :: out)
  | report_no r l out : (forall rows, ~ reported chunk min_on border r rows) -> report chunk min_on border l out -> report chunk min_on border (r :: l) out.

(** Timestamps never decrease. *)
Definition time_ordered (chunk : list sample) : Prop := forall i j a b, i <= j -> nth_error chunk i = Some a -> nth_error chunk j = Some b -> (fst a <= fst b)%Z.

(** A maximal run of on readings with an off reading on either side. *)
Definition maximal_run (threshold : Z) (chunk : list sample) (r : nat * nat) : Prop :=
  0 < fst r /\ fst r < snd r /\ off_at threshold chunk (fst r - 1) /\ (forall k, fst r <= k < snd r -> on_at threshold chunk k) /\ off_at threshold chunk (snd r).

(** [parts] are disjoint slices of [chunk], in order. *)
Inductive slices : list sample -> list (list sample) -> Prop :=
  | slices_nil chunk : slices chunk []
  | slices_cons before part rest parts : slices rest parts -> slices (before ++ part ++ rest) (part :: parts).
