(** Property theorems about steady-state detection (C40). *)
From Verif Require Import Base SteadyModel SteadySpec SteadyProofs SteadyCor.
From Coq Require Import QArith Qabs Sorted.
Open Scope nat_scope.

(** C40: the readings split, in order, into states; the level of a state is the
    mean of its readings from where the new level is reached; the changes of
    level that exceed the noise level are reported (with the time at which the
    state starts), except the one at the very start when it is a positive level;
    no change at all is an error. *)
Theorem C40_states : forall cols threshold noise r0 rows, cols <= 2 -> (0 <= noise)%Q ->
  Forall (fun r : row => length (snd r) = cols) (r0 :: rows) ->
  exists l levels sel,
    splits threshold cols (r0 :: rows) l /\
    Forall2 (fun s level => mean_level cols (level_readings s) level) l levels /\
    selected (fun x => exceeds_abs noise (snd (fst x))) (changes (repeat 0%Q cols) (combine (map start_of l) levels)) sel /\
    match sel with
    | [] => find_steady_states cols (r0 :: rows) threshold noise = Err IndexError
    | (t, d, level) :: rest =>
        (t = fst r0 /\ exceeds noise level ->
           find_steady_states cols (r0 :: rows) threshold noise =
             Ok (map (fun x => (fst (fst x), snd x)) rest, map fst rest)) /\
        (~ (t = fst r0 /\ exceeds noise level) ->
           find_steady_states cols (r0 :: rows) threshold noise =
             Ok (map (fun x => (fst (fst x), snd x)) sel, map fst sel))
    end.
Proof. intros cols threshold noise r0 rows H1 H2 H3. exact (steady_thm cols threshold noise H1 H2 r0 rows H3). Qed.
Print Assumptions C40_states.

(** C40: what is reported is in time order, at times of the input, and larger
    than the noise level. *)
Theorem C40_report : forall cols threshold noise rows steady trans, cols <= 2 -> (0 <= noise)%Q ->
  Forall (fun r : row => length (snd r) = cols) rows -> StronglySorted Z.lt (map fst rows) ->
  find_steady_states cols rows threshold noise = Ok (steady, trans) ->
  map fst steady = map fst trans /\ StronglySorted Z.lt (map fst trans) /\
  Forall (fun t => In t (map fst rows)) (map fst trans) /\ Forall (fun x => exceeds_abs noise (snd x)) trans.
Proof. exact report_thm. Qed.
Print Assumptions C40_report.

Definition rd (t : Z) (p : Z) : row := (t, [inject_Z p]).
(** 0 0 100 102 (one second in between at 50) 0. *)
Example C40_states_met :
  let rows := [rd 1 0; rd 2 0; rd 3 50; rd 4 100; rd 5 102; rd 6 0; rd 7 0] in
  Forall (fun r : row => length (snd r) = 1) rows /\ StronglySorted Z.lt (map fst rows) /\
  match find_steady_states 1 rows (inject_Z 15) (inject_Z 70) with
  | Ok (steady, trans) =>
      Forall2 (fun a b => fst a = fst b /\ Forall2 Qeq (snd a) (snd b)) steady [rd 3 101; rd 6 0] /\
      Forall2 (fun a b => fst a = fst b /\ Forall2 Qeq (snd a) (snd b)) trans [rd 3 101; rd 6 (-101)]
  | Err _ => False
  end.
Proof. cbn. repeat (split || constructor). Qed.
(** A load that is on from the start is not reported as a transition. *)
Example C40_first_dropped :
  match find_steady_states 1 [rd 1 200; rd 2 200; rd 3 0] (inject_Z 15) (inject_Z 70) with
  | Ok (steady, trans) => map fst trans = [3%Z]
  | Err _ => False
  end.
Proof. reflexivity. Qed.

(** C40: a series without an event does not give empty frames. *)
Theorem C40_no_event_refuted : exists rows : list row, rows <> [] /\
  Forall (fun r => snd r = [0%Q]) rows /\ find_steady_states 1 rows (inject_Z 15) (inject_Z 70) = Err IndexError.
Proof. exists [rd 1 0; rd 2 0; rd 3 0]. split; [discriminate|]. split; [repeat constructor|reflexivity]. Qed.
Print Assumptions C40_no_event_refuted.

(** C40: the steady levels reported next to each other need not differ by the
    transition reported between them: a change below the noise level moves the
    reference without being reported. *)
Theorem C40_whole_change_refuted : exists rows t1 p1 d1 t2 p2 d2,
  find_steady_states 1 rows (inject_Z 15) (inject_Z 70) = Ok ([(t1, [p1]); (t2, [p2])], [(t1, [d1]); (t2, [d2])]) /\
  ~ (p2 == p1 + d2)%Q.
Proof.
  exists [rd 1 0; rd 2 100; rd 3 100; rd 4 150; rd 5 150; rd 6 300; rd 7 300]. vm_compute. do 6 eexists. split; [reflexivity|]. discriminate.
Qed.
Print Assumptions C40_whole_change_refuted.

(** C40: the result for a whole series is not the result of its chunks: a chunk
    without an event raises. *)
Theorem C40_chunks_refuted : exists (a b : list (option row)) x,
  find_steady_states_transients 1 [a ++ b] (inject_Z 15) (inject_Z 70) = Ok x /\
  find_steady_states_transients 1 [a; b] (inject_Z 15) (inject_Z 70) = Err IndexError.
Proof.
  exists [Some (rd 1 0); Some (rd 2 0)], [Some (rd 3 100); Some (rd 4 100)]. eexists. split; vm_compute; reflexivity.
Qed.
Print Assumptions C40_chunks_refuted.

(** C40: loading chunk by chunk gives, one after the other, the steady states and the
    transitions of the complete rows of each chunk that has any. *)
Theorem C40_load : forall cols threshold noise chunks steady trans,
  find_steady_states_transients cols chunks threshold noise = Ok (steady, trans) ->
  exists parts, Forall2 (fun rows x => find_steady_states cols rows threshold noise = Ok x) (usable chunks) parts /\
    steady = concat (map fst parts) /\ trans = concat (map snd parts) /\ parts <> [].
Proof. intros cols threshold noise chunks steady trans. exact (load_thm cols threshold noise chunks steady trans). Qed.
Print Assumptions C40_load.

(** C40: what is reported for all chunks is in time order, at times of complete rows, and larger than the noise level. *)
Theorem C40_load_report : forall cols threshold noise chunks steady trans, cols <= 2 -> (0 <= noise)%Q ->
  Forall (fun r : row => length (snd r) = cols) (concat (map complete chunks)) -> StronglySorted Z.lt (map fst (concat (map complete chunks))) ->
  find_steady_states_transients cols chunks threshold noise = Ok (steady, trans) ->
  map fst steady = map fst trans /\ StronglySorted Z.lt (map fst trans) /\
  Forall (fun t => In t (map fst (concat (map complete chunks)))) (map fst trans) /\ Forall (fun x => exceeds_abs noise (snd x)) trans.
Proof. exact load_report_thm. Qed.
Print Assumptions C40_load_report.
Example C40_load_met :
  let chunks := [[Some (rd 1 0); None; Some (rd 3 100); Some (rd 4 100)]; [None]; [Some (rd 6 100); Some (rd 7 100); Some (rd 8 0); Some (rd 9 0)]] in
  Forall (fun r : row => length (snd r) = 1) (concat (map complete chunks)) /\ StronglySorted Z.lt (map fst (concat (map complete chunks))) /\
  match find_steady_states_transients 1 chunks (inject_Z 15) (inject_Z 70) with
  | Ok (steady, trans) => map fst trans = [3%Z; 8%Z] /\ Forall2 (fun a b => Forall2 Qeq (snd a) (snd b)) trans [rd 3 100; rd 8 (-100)]
  | Err _ => False
  end.
Proof. cbn zeta. split; [repeat constructor|]. split; [repeat constructor|]. vm_compute. repeat (split || constructor). Qed.

(** C40: more than two columns. *)
Theorem C40_columns : forall cols rows threshold noise, rows <> [] -> 2 < cols ->
  find_steady_states cols rows threshold noise = Err ValueError.
Proof. intros cols [|r rows] th no H1 H2; [contradiction|]. unfold find_steady_states. apply Nat.ltb_lt in H2. rewrite H2. reflexivity. Qed.
Print Assumptions C40_columns.
Example C40_columns_met : find_steady_states 3 [(1%Z, [0%Q; 0%Q; 0%Q])] (inject_Z 15) (inject_Z 70) = Err ValueError.
Proof. reflexivity. Qed.
