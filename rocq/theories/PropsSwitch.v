(** C63: switches of a meter and of several meters at once. *)
From Verif Require Import Base SwitchModel SwitchSpec SwitchProofs.
Open Scope Z_scope.

(** Exactly the moments at which a reading differs from the one before it in
    the same chunk by more than the threshold are reported. *)
Theorem C63_chunks threshold chunks t : In t (switch_times threshold chunks) <-> exists c, In c chunks /\ switch_at threshold c t.
Proof. exact (chunks_thm threshold chunks t). Qed.
Print Assumptions C63_chunks.

(** Whatever the chunks, nothing is reported that is no switch of the whole
    series. *)
Theorem C63_sound threshold chunks t : In t (switch_times threshold chunks) -> switch_at threshold (concat chunks) t.
Proof. exact (sound_thm threshold chunks t). Qed.
Print Assumptions C63_sound.

(** A switch of the whole series is reported unless it is at the first reading
    of a chunk.  (Missing for the full property: those at the first reading of
    a later chunk, see [C63_boundary_refuted].) *)
Theorem C63_complete_partial threshold chunks t : switch_at threshold (concat chunks) t ->
  In t (switch_times threshold chunks) \/ exists c x r, In c chunks /\ c = (t, x) :: r.
Proof. exact (complete_thm threshold chunks t). Qed.
Print Assumptions C63_complete_partial.

(** They come in the order of time, each once. *)
Theorem C63_order threshold chunks : rising (times (concat chunks)) -> rising (switch_times threshold chunks).
Proof. exact (order_thm threshold chunks). Qed.
Print Assumptions C63_order.

(** For several submeters: the moments at which at least two switch, each once,
    with the number of submeters that do. *)
Theorem C63_simultaneous threshold submeters : Forall (fun m => rising (times (concat m))) submeters ->
  NoDup (map fst (simultaneous_switches threshold submeters)) /\
  forall t n, In (t, n) (simultaneous_switches threshold submeters) <-> switching threshold t submeters n /\ (2 <= n)%nat.
Proof. exact (simultaneous_thm threshold submeters). Qed.
Print Assumptions C63_simultaneous.

(** A kettle and a lamp. *)
Definition C63_kettle : list chunk := [[(0, Some 0); (6, Some 2000); (12, Some 2010); (18, Some 0)]; [(24, Some 5); (30, Some 2000)]].
Definition C63_lamp : list chunk := [[(0, Some 0); (6, Some 0); (12, Some 60); (18, Some 0); (24, Some 0); (30, Some 60)]].
Example C63_kettle_ok : switch_times 40 C63_kettle = [6; 18; 30] /\ rising (times (concat C63_kettle)) /\ rising (times (concat C63_lamp)).
Proof. cbn. repeat split; lia. Qed.
Example C63_both : simultaneous_switches 40 [C63_kettle; C63_lamp] = [(18, 2%nat); (30, 2%nat)].
Proof. reflexivity. Qed.

(** Whether a switch is reported depends on how the data are cut into chunks:
    the one between the last reading of a chunk and the first of the next is
    lost. *)
Theorem C63_boundary_refuted : exists a b t, switch_at 40 (a ++ b) t /\ rising (times (a ++ b)) /\
  switch_times 40 [a ++ b] = [t] /\ switch_times 40 [a; b] = [].
Proof.
  exists [(0, Some 0); (6, Some 0)], [(12, Some 2000); (18, Some 2000)], 12. split; [|cbn; repeat split; lia].
  exists [(0, Some 0)], 6, 0, 2000, [(18, Some 2000)]. split; [reflexivity|cbn; lia].
Qed.
Print Assumptions C63_boundary_refuted.

(** A missing reading hides a switch on: the power before and after differ by
    2000 watts and no switch is reported. *)
Theorem C63_missing_refuted : exists c, rising (times c) /\ In (0, Some 0) c /\ In (18, Some 2000) c /\ switch_times 40 [c] = [].
Proof. exists [(0, Some 0); (6, Some 0); (12, None); (18, Some 2000)]. cbn. repeat split; try lia; tauto. Qed.
Print Assumptions C63_missing_refuted.
