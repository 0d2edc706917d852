(** C92: energy over named sections, and the error in assigned energy. *)
From Coq Require Import QArith Qabs.
From Verif Require Import Base TimeFrameModel TimeFrameSpec StoreModel StoreSpec GoodSectionsSpec EnergyModel EnergySpec WholeSpec GapsSpec TopModel GStatsModel GStatsSpec
  ShareModel ShareSpec ItemModel ItemSpec PairModel PairSpec AssignModel AssignSpec AssignProofs AssignProofs2 AssignProofs3.
Import List. Open Scope Z_scope.

Definition anytime : tf := mkTF None None true false false.
Definition from_to (a b : Z) (incl : bool) : tf := mkTF (Some a) (Some b) true false incl.

(** [total_energy(sections=...)] over sections that follow each other: the sum of the
    energies of the readings within each, whatever the chunk size and the window
    of the store; nothing is counted between the last reading of a
    section and the first one of the next.  No entry if no section has two readings. *)
Theorem C92_sections : forall a msp s window sections ms es c,
  0 <= msp -> increasing s -> in_sequence sections -> section_rows window s sections ms -> Forall2 (is_energy msp) ms es -> (1 <= c)%nat ->
  (two_readings ms -> energies_over (power_meter a msp s) window sections c = Ok [(a, Some (inject_Z (sumZ es)))]) /\
  (~ two_readings ms -> energies_over (power_meter a msp s) window sections c = Ok []).
Proof. exact over_energy. Qed.
Print Assumptions C92_sections.

Definition fridge : list (sample Z) := [(0, 10); (7, 20); (13, 30); (20, 40); (27, 50); (33, 0); (605, 60); (612, 70); (620, 80)].
Definition named := [from_to 5 13 false; from_to 13 27 true; from_to 600 640 false].
Definition until_610 : tf := mkTF None (Some 612) true false false.
Example C92_sections_ex : increasing fridge /\ in_sequence named /\
  section_rows until_610 fridge named [[(7, 20)]; [(13, 30); (20, 40); (27, 50)]; [(605, 60)]] /\
  two_readings [[(7, 20)]; [(13, 30); (20, 40); (27, 50)]; [(605, 60)]] /\
  Forall2 (is_energy 60) [[(7, 20)]; [(13, 30); (20, 40); (27, 50)]; [(605, 60)]] [0; 490; 0] /\
  energies_over (power_meter Active 60 fridge) until_610 named 2 = Ok [(Active, Some (inject_Z 490))] /\
  energies_over (power_meter Active 60 fridge) anytime named 2 = Ok [(Active, Some (inject_Z (490 + 980)))].
Proof.
  split; [cbn; lia|]. split.
  { unfold in_sequence, named. do 3 (eexists; eexists; split; [repeat split; cbn; reflexivity|split; [intros ? [= <-]; lia || discriminate|]]); try exact I. }
  split.
  { assert (K : forall a b incl i, requested until_610 (from_to a b incl) i <-> a <= i /\ (i < b \/ i = b /\ incl = true) /\ (i < 612 \/ i = 612 /\ b = 612)).
    { intros a b incl i. unfold requested, inTFc, until_610, from_to, tf_start, tf_end. cbn. split.
      - intros (_ & (_ & K1 & K2) & _ & K4). specialize (K1 a eq_refl). specialize (K2 b eq_refl). specialize (K4 612 eq_refl). split; [exact K1|]. split; [tauto|].
        destruct K4 as [K4|[K4 [[= K5]|K5]]]; [left; exact K4|right; split; assumption|discriminate].
      - intros (K1 & K2 & K3). split; [reflexivity|]. split; [split; [reflexivity|split; [intros ? [= <-]; exact K1|intros ? [= <-]; tauto]]|]. split; [discriminate|].
        intros ? [= <-]. destruct K3 as [K3|[K3 ->]]; [left; exact K3|right; split; [exact K3|left; reflexivity]]. }
    unfold section_rows, named, fridge. 
    constructor; [|constructor; [|constructor; [|constructor]]].
    all: repeat first [apply filt_nil | apply filt_keep; [apply K; cbn; split; [lia|split; [first [left; lia|right; split; [lia|reflexivity]]|lia]]|]
      | apply filt_drop; [rewrite K; cbn; intros (? & [?|[? ?]] & ?); (lia || discriminate)|]]. }
  split; [exists [(13, 30); (20, 40); (27, 50)]; split; [cbn; tauto|cbn; lia]|]. split.
  { constructor; [right; exists 7, 7; repeat split; [exists (7, 20), []; split; reflexivity|exists (7, 20), []; split; reflexivity]|].
    constructor; [right; exists 13, 27; repeat split; [eexists; eexists; split; reflexivity|exists (27, 50), [(13, 30); (20, 40)]; split; reflexivity]|].
    constructor; [right; exists 605, 605; repeat split; [exists (605, 60), []; split; reflexivity|exists (605, 60), []; split; reflexivity]|constructor]. }
  split; vm_compute; reflexivity.
Qed.

(** [error_in_assigned_energy] for one appliance.  The ground truth has its own
    times, [max_sample_period] and store.  If both have readings in the good sections of the
    prediction, the error is the absolute difference of their energies over these
    sections. *)
Theorem C92_value : forall a msp msp' pred truth m wp wt ms tm last c es es',
  0 <= msp -> 0 <= msp' -> increasing pred -> increasing truth -> rows_within wp pred m -> (2 <= length m)%nat ->
  row_runs msp m ms -> last_time m last -> ends_there msp pred last -> leaves_all wt m -> during (long_runs ms) truth tm -> (1 <= c)%nat ->
  Forall2 (is_energy msp) (cut_runs (long_runs ms)) es -> Forall2 (is_energy msp') tm es' ->
  two_readings (cut_runs (long_runs ms)) -> two_readings tm ->
  exists q, assigned_error (power_meter a msp pred) wp (power_meter a msp' truth) wt c = Ok [(a, Some q)] /\ (q == inject_Z (Z.abs (sumZ es' - sumZ es)))%Q.
Proof. exact error_value. Qed.
Print Assumptions C92_value.
(** NaN if the ground truth has too few readings there. *)
Theorem C92_unread : forall a b msp msp' pred truth m wp wt ms tm last c,
  0 <= msp -> increasing pred -> increasing truth -> rows_within wp pred m -> (2 <= length m)%nat ->
  row_runs msp m ms -> last_time m last -> ends_there msp pred last -> leaves_all wt m -> during (long_runs ms) truth tm -> (1 <= c)%nat ->
  two_readings (cut_runs (long_runs ms)) -> ~ two_readings tm ->
  assigned_error (power_meter a msp pred) wp (power_meter b msp' truth) wt c = Ok [(a, None)].
Proof. exact error_unread. Qed.
Print Assumptions C92_unread.
(** If the prediction is of another AC type than the ground truth, as it is when the mains
    record apparent and the submeters active power, there is no error to be had: all
    entries are NaN. *)
Theorem C92_types_refuted : forall a b msp msp' pred truth m wp wt ms tm last c,
  a <> b -> 0 <= msp -> increasing pred -> increasing truth -> rows_within wp pred m -> (2 <= length m)%nat ->
  row_runs msp m ms -> last_time m last -> ends_there msp pred last -> leaves_all wt m -> during (long_runs ms) truth tm -> (1 <= c)%nat ->
  two_readings (cut_runs (long_runs ms)) -> two_readings tm ->
  exists e, assigned_error (power_meter a msp pred) wp (power_meter b msp' truth) wt c = Ok e /\ e <> [] /\ Forall (fun x => snd x = None) e.
Proof. exact error_types. Qed.
Print Assumptions C92_types_refuted.

(** Predicted every 10 s, with an outage; the ground truth as above. *)
Definition guess : list (sample Z) := combine [0; 10; 20; 30; 600; 610; 620] [15; 25; 35; 0; 60; 60; 0].
Definition guess_runs := [firstn 4 guess; skipn 4 guess].
Definition fridge_rows := [[(0, 10); (7, 20); (13, 30); (20, 40); (27, 50)]; [(605, 60); (612, 70); (620, 80)]].
Lemma guess_ok : increasing guess /\ rows_within anytime guess guess /\ row_runs 60 guess guess_runs /\ last_time guess 620 /\ ends_there 60 guess 620.
Proof.
  split; [cbn; lia|]. split.
  { unfold rows_within, guess. cbn [combine]. do 7 (apply filt_keep; [split; [reflexivity|split; discriminate]|]). constructor. }
  split; [split; [reflexivity|]|].
  - split; [reflexivity|]. split; [repeat constructor; try discriminate; cbn; lia|]. cbn [guess_runs map separated fst].
    split; [|exact I]. intros x y (r & Hx) (q & Hy). cbn in Hx, Hy. injection Hy as <- _.
    apply (app_inj_tail [0; 10; 20] r 30 x) in Hx. destruct Hx as [_ <-]. lia.
  - split; [exists (620, 0), (removelast guess); split; reflexivity|].
    intros r Hr [H _]. repeat (destruct Hr as [<-|Hr]; [cbn in H; lia|]). destruct Hr.
Qed.
Example C92_value_ex : leaves_all anytime guess /\ during (long_runs guess_runs) fridge fridge_rows /\
  Forall2 (is_energy 60) (cut_runs (long_runs guess_runs)) [400; 1200] /\ Forall2 (is_energy 6) fridge_rows [60 + 120 + 180 + 240; 360 + 420] /\
  two_readings (cut_runs (long_runs guess_runs)) /\ two_readings fridge_rows /\
  (exists q, assigned_error (power_meter Active 60 guess) anytime (power_meter Active 6 fridge) anytime 3 = Ok [(Active, Some q)] /\ (q == 220)%Q) /\
  assigned_error (power_meter Apparent 60 guess) anytime (power_meter Active 6 fridge) anytime 3 = Ok [(Active, None); (Apparent, None)] /\
  assigned_error (power_meter Apparent 60 guess) anytime (power_meter Active 6 [(50, 1); (60, 2)]) anytime 3 = Ok [(Apparent, None)].
Proof.
  split; [intros r _; split; [reflexivity|split; discriminate]|]. split.
  { cbn [guess_runs guess combine firstn skipn long_runs filter length Nat.leb during fridge_rows].
    split; [exists 0, 30; split; [eexists; eexists; split; reflexivity|]; split; [exists (30, 0), [(0, 15); (10, 25); (20, 35)]; split; reflexivity|]|].
    2: split; [exists 600, 620; split; [eexists; eexists; split; reflexivity|]; split; [exists (620, 0), [(600, 60); (610, 60)]; split; reflexivity|]|exact I].
    all: unfold fridge; repeat first [apply filt_nil | apply filt_keep; [cbn; split; [lia|first [left; lia|right; split; [lia|reflexivity]]]|] | apply filt_drop; [cbn; intros [? [?|[? ?]]]; (lia || discriminate)|]]. }
  split; [constructor; [|constructor; [|constructor]]; right; [exists 0, 20|exists 600, 620]; (split; [eexists; eexists; split; reflexivity|]); split;
    [exists (20, 35), [(0, 15); (10, 25)]; split; reflexivity|vm_compute; reflexivity|exists (620, 0), [(600, 60); (610, 60)]; split; reflexivity|vm_compute; reflexivity]|].
  split; [constructor; [|constructor; [|constructor]]; right; [exists 0, 27|exists 605, 620]; (split; [eexists; eexists; split; reflexivity|]); split;
    [exists (27, 50), [(0, 10); (7, 20); (13, 30); (20, 40)]; split; reflexivity|vm_compute; reflexivity|exists (620, 80), [(605, 60); (612, 70)]; split; reflexivity|vm_compute; reflexivity]|].
  split; [eexists; split; [left; reflexivity|cbn; lia]|]. split; [eexists; split; [left; reflexivity|cbn; lia]|].
  split; [eexists; split; [vm_compute; reflexivity|reflexivity]|]. split; vm_compute; reflexivity.
Qed.

(** A perfect prediction has no error, whatever the table. *)
Theorem C92_perfect : forall x window c e, assigned_error x window x window c = Ok e -> Forall (fun p => exists q, snd p = Some q /\ (q == 0)%Q) e.
Proof. exact error_perfect. Qed.
Print Assumptions C92_perfect.
Example C92_perfect_ex : exists e, assigned_error (power_meter Active 60 guess) anytime (power_meter Active 60 guess) anytime 3 = Ok e /\ length e = 1%nat.
Proof. eexists. split; [vm_compute; reflexivity|reflexivity]. Qed.

(** If both report at the same times, the error is at most the energy of the difference of
    their readings, over the same pieces. *)
Theorem C92_difference : forall a msp pred truth m window ms ds last c ed,
  0 <= msp -> increasing pred -> map fst truth = map fst pred -> rows_within window pred m -> (2 <= length m)%nat ->
  row_runs msp m ms -> last_time m last -> ends_there msp pred last -> (1 <= c)%nat ->
  rows_within window (apart pred truth) (concat ds) -> same_times ds ms -> Forall2 (is_energy msp) (cut_runs (long_runs ds)) ed ->
  exists e, assigned_error (power_meter a msp pred) window (power_meter a msp truth) window c = Ok e /\
    Forall (fun x => exists q, snd x = Some q /\ (q <= inject_Z (sumZ ed))%Q) e.
Proof. exact error_difference. Qed.
Print Assumptions C92_difference.
Definition really : list (sample Z) := combine [0; 10; 20; 30; 600; 610; 620] [25; 15; 35; 0; 60; 40; 0].
Definition gap_runs := [[(0, 10); (10, 10); (20, 0); (30, 0)]; [(600, 0); (610, 20); (620, 0)]].
Example C92_difference_ex : apart guess really = concat gap_runs /\ same_times gap_runs guess_runs /\ rows_within anytime (apart guess really) (concat gap_runs) /\
  Forall2 (is_energy 60) (cut_runs (long_runs gap_runs)) [200; 200] /\
  exists q, assigned_error (power_meter Active 60 guess) anytime (power_meter Active 60 really) anytime 3 = Ok [(Active, Some q)] /\ (q == 200)%Q.
Proof.
  split; [reflexivity|]. split; [reflexivity|]. split.
  { cbn. do 7 (apply filt_keep; [split; [reflexivity|split; discriminate]|]). constructor. }
  split; [constructor; [|constructor; [|constructor]]; right; [exists 0, 20|exists 600, 620]; (split; [eexists; eexists; split; reflexivity|]); split;
    [exists (20, 0), [(0, 10); (10, 10)]; split; reflexivity|vm_compute; reflexivity|exists (620, 0), [(600, 0); (610, 20)]; split; reflexivity|vm_compute; reflexivity]|].
  eexists. split; [vm_compute; reflexivity|reflexivity].
Qed.

(** [error_in_assigned_energy(predictions, ground_truth)]: one entry for each submeter of the
    predictions, under its instance: the error against its counterpart in the ground truth. *)
Section Groups.
Context {app : Type}.
Variable matches : app -> list (nat * obj) -> res bool.
Variable order : list app -> list app.
Variable several : list (node app) -> list obj.
Variable table : node app -> stored * tf.
Variable other_error : node app * found app -> res series.
Theorem C92_group : forall d c (predictions truth subs : list (node app)) r, within_dataset d (Grp truth) -> Filtered is_submeter predictions subs ->
  Forall (fun m => ordinary (ident m) /\ is_group m = false) subs ->
  ForallOrdPairs (fun m m' => ~ Same (instance m) (instance m')) subs ->
  error_in_assigned_energy matches order several table other_error c predictions truth = Ok r ->
  exists vs, r = combine (map instance subs) vs /\
    Forall2 (fun m v => exists x, First (counterpart d m) truth x /\
       assigned_error (fst (table m)) (snd (table m)) (fst (table x)) (snd (table x)) c = Ok v) subs vs.
Proof. exact (group_errors matches order several table other_error). Qed.
End Groups.
Print Assumptions C92_group.
Definition meter_ (ds : nat) (n : Z) : node unit := Meter (Int n) (Int 1) (Str ds) false [].
Definition ex_table (x : node unit) : stored * tf :=
  (match x with
   | Meter (Int 2) _ (Str 8) _ _ => power_meter Active 60 guess
   | Meter (Int 2) _ _ _ _ => power_meter Active 60 really
   | _ => power_meter Active 60 guess
   end, anytime).
Example C92_group_ex : match error_in_assigned_energy (fun _ _ => Ok false) (fun l => l) (fun _ => []) ex_table (fun _ => Err TypeError) 3
    [Meter (Int 1) (Int 1) (Str 8) true []; meter_ 8 2; meter_ 8 3] [meter_ 9 3; meter_ 9 2] with
  | Ok [(Int 2, [(Active, Some q)]); (Int 3, [(Active, Some q')])] => (q == 200)%Q /\ (q' == 0)%Q
  | _ => False
  end.
Proof. vm_compute. split; reflexivity. Qed.
