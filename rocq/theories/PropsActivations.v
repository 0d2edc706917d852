(** C32: appliance activations (nilmtk/electric.py:899-987). *)
From Verif Require Import Base ActivationsModel ActivationsSpec ActivationsProofs.
Open Scope nat_scope.

(** Never raises; reports, in order, each on-period (off-periods shorter than
    [min_off] bridged) that lasts at least [min_on] and has no missing row. *)
Theorem C32_on_periods chunk threshold min_off min_on border : time_ordered chunk ->
  exists l out, get_activations chunk min_off min_on border threshold = Ok out /\
    on_periods threshold chunk min_off l /\ report chunk min_on border l out.
Proof. exact (activations_thm chunk threshold min_off min_on border). Qed.
Print Assumptions C32_on_periods.

(** Without bridging, the on-periods are exactly the maximal runs of readings
    at or above the threshold that are bounded on both sides. *)
Theorem C32_exact chunk threshold min_off min_on border : time_ordered chunk -> (min_off <= 0)%Z ->
  exists l out, get_activations chunk min_off min_on border threshold = Ok out /\
    (forall r, In r l <-> maximal_run threshold chunk r) /\ apart threshold chunk min_off l /\ report chunk min_on border l out.
Proof. exact (exact_thm chunk threshold min_off min_on border). Qed.
Print Assumptions C32_exact.

(** Without a border the activations are disjoint and in time order. *)
Theorem C32_disjoint_partial chunk threshold min_off min_on out : time_ordered chunk ->
  get_activations chunk min_off min_on 0 threshold = Ok out -> slices chunk out.
Proof. exact (slices_thm chunk threshold min_off min_on out). Qed.
Print Assumptions C32_disjoint_partial.

(** A washing machine with a pause of 2 s between two bouts, then a short blip. *)
Definition C32_series : list sample :=
  [(0, Some 0); (1, Some 0); (2, Some 9); (3, Some 9); (4, Some 0); (5, Some 0); (6, Some 7); (7, Some 0); (8, Some 0); (9, Some 0); (10, Some 0); (11, Some 6); (12, Some 0); (13, Some 0)]%Z.
Example C32_example : time_ordered C32_series /\
  get_activations C32_series 3 2 0 5 = Ok [[(1, Some 0); (2, Some 9); (3, Some 9); (4, Some 0); (5, Some 0); (6, Some 7)]]%Z /\
  get_activations C32_series 0 1 0 5 = Ok [[(1, Some 0); (2, Some 9); (3, Some 9)]; [(5, Some 0); (6, Some 7)]; [(10, Some 0); (11, Some 6)]]%Z.
Proof.
  split; [|split; reflexivity]. intros i j a b H Ha Hb.
  assert (forall k s, nth_error C32_series k = Some s -> fst s = Z.of_nat k).
  { intros k s Hs. do 14 (destruct k as [|k]; [injection Hs as <-; reflexivity|]). destruct k; discriminate. }
  rewrite (H0 i a Ha), (H0 j b Hb). lia.
Qed.

(** "with zero thresholds exactly the maximal runs" fails at the ends: a run
    that is on at the first or the last reading is not reported. *)
Theorem C32_edges_refuted : exists chunk, time_ordered chunk /\ (exists k, on_at 5 chunk k) /\ get_activations chunk 0 0 0 5 = Ok [].
Proof.
  exists [(0, Some 9); (1, Some 9); (2, Some 0); (3, Some 9)]%Z. split; [|split; [exists 0; exists 0%Z, 9%Z; split; [reflexivity|lia]|reflexivity]].
  intros i j a b H Ha Hb. do 4 (destruct i as [|i]; [do 4 (destruct j as [|j]; [injection Ha as <-; injection Hb as <-; cbn; lia|]); destruct j; discriminate|]). destruct i; discriminate.
Qed.
Print Assumptions C32_edges_refuted.

(** With a border the activations may overlap. *)
Theorem C32_disjoint_refuted : exists chunk a b x, get_activations chunk 0 0 1 5 = Ok [a; b] /\ In x a /\ In x b.
Proof.
  exists [(0, Some 0); (1, Some 9); (2, Some 0); (3, Some 9); (4, Some 0)]%Z.
  eexists _, _, (1, Some 9)%Z. split; [reflexivity|]. split; cbn; tauto.
Qed.
Print Assumptions C32_disjoint_refuted.

(** One row more than [border] is included before the on-period. *)
Theorem C32_border_refuted : exists chunk a, get_activations chunk 0 0 1 5 = Ok [a] /\
  chunk = [(0, Some 0); (1, Some 0); (2, Some 0); (3, Some 9); (4, Some 0); (5, Some 0)]%Z /\
  a = [(1, Some 0); (2, Some 0); (3, Some 9); (4, Some 0)]%Z.
Proof. eexists _, _. split; [|split; reflexivity]. reflexivity. Qed.
Print Assumptions C32_border_refuted.

(** One missing reading makes a whole on-period disappear (with a border), even
    the part before it. *)
Theorem C32_missing_refuted : exists chunk, time_ordered chunk /\ get_activations chunk 0 0 1 5 = Ok [] /\
  (exists r, maximal_run 5 chunk r /\ snd r - fst r = 3 /\ forall s, In s (firstn 4 chunk) -> snd s <> None).
Proof.
  exists [(0, Some 0); (1, Some 9); (2, Some 9); (3, Some 9); (4, None); (5, Some 9); (6, Some 0)]%Z. split; [|split; [reflexivity|]].
  - intros i j a b H Ha Hb. do 7 (destruct i as [|i]; [do 7 (destruct j as [|j]; [injection Ha as <-; injection Hb as <-; cbn; lia|]); destruct j; discriminate|]). destruct i; discriminate.
  - exists (1, 4). split; [|split; [reflexivity|]].
    + unfold maximal_run. cbn [fst snd]. split; [lia|]. split; [lia|]. split; [exists (0, Some 0)%Z; split; [reflexivity|intros (t & v & E & L); injection E as <- <-; lia]|]. split.
      * intros k Hk. assert (k = 1 \/ k = 2 \/ k = 3) as [-> | [-> | ->]] by lia; eexists _, _; (split; [reflexivity|lia]).
      * exists (4, None)%Z. split; [reflexivity|intros (t & v & E & L); discriminate].
    + intros s Hs. cbn in Hs. destruct Hs as [<-|[<-|[<-|[<-|[]]]]]; discriminate.
Qed.
Print Assumptions C32_missing_refuted.
