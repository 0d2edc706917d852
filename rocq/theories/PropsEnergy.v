(** C15 and C16: energy of a meter. *)
From Verif Require Import Base TimeFrameModel TimeFrameSpec TimeFrameProofs ResultsModel ResultsSpec StoreModel StoreSpec
  EnergyModel EnergySpec EnergyProofs EnergyProofs2.
Open Scope Z_scope.

(** Decides small concrete side conditions. *)
Ltac small := repeat match goal with
  | |- Forall _ [] => constructor
  | |- Forall _ (_ :: _) => constructor
  | |- Forall2 _ [] _ => constructor
  | |- Forall2 _ (_ :: _) _ => constructor
  end.

Lemma ex_filter {A} (P : A -> Prop) (f : A -> bool) l : (forall x, f x = true <-> P x) -> is_filter P l (filter f l).
Proof.
  intros H. induction l as [|x l IH]; cbn; [constructor|]. destruct (f x) eqn:E.
  - constructor; [apply H; exact E|exact IH].
  - constructor; [rewrite <- H; congruence|exact IH].
Qed.

(** ** C15 *)

(** The energy of a power series is the integral over time of the power in
    force, where a reading stays in force until the next one but at most [msp]
    seconds; missing readings are as if they were not there. *)
Theorem C15_integral : forall msp (m : list (sample (list (option Z)))) k s, 0 <= msp -> increasing s -> present k m s ->
  is_energy msp s (energy_for_power_series (map (fun r => (fst r, nth k (snd r) None)) m) msp).
Proof. exact integral. Qed.
Print Assumptions C15_integral.

Theorem C15_energy_unique : forall msp s e e', is_energy msp s e -> is_energy msp s e' -> e = e'.
Proof. exact is_energy_unique. Qed.
Print Assumptions C15_energy_unique.

Example C15_integral_example : is_energy 5 [(0, 10); (3, 20); (20, 30)] 130 /\
  energy_for_power_series [(0, Some 10); (3, Some 20); (10, None); (20, Some 30)] 5 = 130.
Proof. split; [right; exists 0, 20; split; [eexists _, _; split; reflexivity|]; split; [exists (20, 30), [(0, 10); (3, 20)]; split; reflexivity|reflexivity]|reflexivity]. Qed.

(** Energy is never negative when power is not, and grows with power and with
    the longest gap that is bridged. *)
Theorem C15_nonnegative : forall msp s, 0 <= msp -> increasing s -> Forall (fun x => 0 <= snd x) s -> forall e, is_energy msp s e -> 0 <= e.
Proof. exact energy_nonneg. Qed.
Print Assumptions C15_nonnegative.

Theorem C15_monotone : forall msp msp' s s', 0 <= msp -> msp <= msp' -> increasing s -> Forall (fun x => 0 <= snd x) s ->
  Forall2 (fun x y => fst x = fst y /\ snd x <= snd y) s s' ->
  forall e e', is_energy msp s e -> is_energy msp' s' e' -> e <= e'.
Proof. exact energy_monotone. Qed.
Print Assumptions C15_monotone.

(** Which quantity of an AC type is used: cumulative energy before energy
    before power; a meter with none of them has no energy of that type. *)
Theorem C15_preference : forall columns a, NoDup columns ->
  (exists q k, uses_column columns a q k) \/
  ((forall q, In (q, Some a) columns -> exists n, q = OtherQuantity n) /\
   forall msp rows, rows <> [] -> exists e, get_total_energy columns rows msp = Ok e /\ en_get a e = None).
Proof. exact preference. Qed.
Print Assumptions C15_preference.

(** A meter's energy over any disjoint sections is the sum of the energies of
    the sections, whatever the chunk size and look-ahead, provided every row
    has a reading and the store serves the sections ([servable]). *)
Theorem C15_load_partial : forall columns msp a k rows window sections ms ss es n c,
  0 <= msp -> uses_column columns a Power k ->
  increasing rows -> (1 <= c)%nat -> half_open window ->
  Forall half_open sections -> Forall usable sections -> no_overlap sections ->
  Forall2 (visible rows window) sections ms -> Forall2 (servable rows window c) sections ms ->
  Forall2 (readings k) ms ss -> Forall2 (is_energy msp) ss es ->
  total_energy_of columns msp a (hdf_load rows window sections n c) = Ok (sumZ es).
Proof. exact load_power. Qed.
Print Assumptions C15_load_partial.

Definition ex_rows : list (sample (list (option Z))) :=
  [(0, [Some 10]); (3, [Some 20]); (6, [Some 5]); (20, [Some 30]); (23, [Some 40]); (30, [Some 1])].
Definition ex_section := mkTF (Some 0) (Some 10) true false false.
Definition ex_section2 := mkTF (Some 20) (Some 30) true false false.
Definition ex_visible s := filter (fun r : sample (list (option Z)) => inTFb s (fst r)) ex_rows.

Example C15_load_example :
  exists ms ss es, Forall2 (visible ex_rows tf_cleared) [ex_section; ex_section2] ms /\
    Forall2 (servable ex_rows tf_cleared 2) [ex_section; ex_section2] ms /\
    Forall2 (readings 0) ms ss /\ Forall2 (is_energy 5) ss es /\ es = [90; 90] /\
    increasing ex_rows /\ Forall half_open [ex_section; ex_section2] /\ Forall usable [ex_section; ex_section2] /\
    no_overlap [ex_section; ex_section2] /\ uses_column [(Power, Some Active)] Active Power 0 /\
    total_energy_of [(Power, Some Active)] 5 Active (hdf_load ex_rows tf_cleared [ex_section; ex_section2] 0 2) = Ok 180.
Proof.
  exists [ex_visible ex_section; ex_visible ex_section2], [[(0, 10); (3, 20); (6, 5)]; [(20, 30); (23, 40)]], [90; 90].
  split; [small; (apply ex_filter; intros x; rewrite inTFb_spec; unfold inTF at 2; cbn; split; [intros H; split; [split; [reflexivity|split; discriminate]|exact H]|tauto])|].
  split; [small; split; [cbn; lia|intros (_ & _ & H & _); discriminate|cbn; lia|intros (_ & _ & H & _); discriminate]|].
  split; [small; unfold readings, ex_visible; cbn; repeat (constructor; [split; reflexivity|]); constructor|].
  split; [small; right; [exists 0, 6|exists 20, 23]; (split; [eexists _, _; split; reflexivity|]; split; [|reflexivity]);
    [exists (6, 5), [(0, 10); (3, 20)]|exists (23, 40), [(20, 30)]]; split; reflexivity|].
  split; [reflexivity|]. split; [cbn; lia|]. split; [small; reflexivity|].
  split; [small; (split; [reflexivity|]; intros a b; cbn; intros [= <-] [= <-]; lia)|].
  split.
  { intros [|[|j]] [|[|j']] a b i; cbn; intros Ha Hb; try reflexivity; try discriminate;
    try (destruct j; discriminate); try (destruct j'; discriminate);
    injection Ha as <-; injection Hb as <-; intros (_ & H1 & H2) (_ & H3 & H4);
    specialize (H1 _ eq_refl); specialize (H2 _ eq_refl); specialize (H3 _ eq_refl); specialize (H4 _ eq_refl); lia. }
  split; [|vm_compute; reflexivity].
  split; [reflexivity|]. split; [constructor; [intros []|constructor]|]. right. right. split; [reflexivity|].
  split; intros [H|[]]; discriminate.
Qed.

(** With missing readings the total may fall short of the energy of the
    section but, for non-negative power, never exceeds it. *)
Theorem C15_missing_readings_lose_partial : forall columns msp a k rows window sections ms es n c,
  0 <= msp -> uses_column columns a Power k ->
  increasing rows -> (1 <= c)%nat -> half_open window ->
  Forall half_open sections -> Forall usable sections -> no_overlap sections ->
  Forall2 (visible rows window) sections ms -> Forall2 (servable rows window c) sections ms ->
  Forall (fun r => forall v, nth k (snd r) None = Some v -> 0 <= v) rows ->
  Forall2 (fun m e => exists s, present k m s /\ is_energy msp s e) ms es ->
  exists t, total_energy_of columns msp a (hdf_load rows window sections n c) = Ok t /\ t <= sumZ es.
Proof. exact load_power_le. Qed.
Print Assumptions C15_missing_readings_lose_partial.

(** It does fall short: a missing reading on the row shared by two chunks makes
    the total depend on the chunk size. *)
Theorem C15_missing_reading_refuted : exists columns msp rows section t t',
  uses_column columns Active Power 0 /\ increasing rows /\ half_open section /\ usable section /\
  total_energy_of columns msp Active (hdf_load rows tf_cleared [section] 0 2) = Ok t /\
  total_energy_of columns msp Active (hdf_load rows tf_cleared [section] 0 100) = Ok t' /\ t < t'.
Proof. exact missing_reading. Qed.
Print Assumptions C15_missing_reading_refuted.

(** ** C16 *)

(** With a cumulative counter the energy of a section is how far the counter
    advanced, whatever the chunk size. *)
Theorem C16_cumulative_partial : forall columns msp a k rows window sections ms ss es n c,
  uses_column columns a CumulativeEnergy k ->
  increasing rows -> (1 <= c)%nat -> half_open window ->
  Forall half_open sections -> Forall usable sections -> no_overlap sections ->
  Forall2 (visible rows window) sections ms -> Forall2 (servable rows window c) sections ms ->
  Forall2 (readings k) ms ss -> Forall2 advance ss es ->
  total_energy_of columns msp a (hdf_load rows window sections n c) = Ok (sumZ es).
Proof. exact load_cumulative. Qed.
Print Assumptions C16_cumulative_partial.

Example C16_cumulative_example :
  uses_column [(Power, Some Active); (CumulativeEnergy, Some Active)] Active CumulativeEnergy 1 /\
  advance [(0, 100); (3, 120); (6, 125)] 25 /\
  total_energy_of [(Power, Some Active); (CumulativeEnergy, Some Active)] 5 Active
    (hdf_load [(0, [Some 1; Some 100]); (3, [None; Some 120]); (6, [Some 3; Some 125]); (12, [Some 3; Some 225])] tf_cleared [ex_section] 0 1) = Ok 25.
Proof.
  split; [|split; [|vm_compute; reflexivity]].
  - split; [reflexivity|]. split; [|left; reflexivity]. constructor; [intros [H|[]]; discriminate|constructor; [intros []|constructor]].
  - right. exists (0, 100), (6, 125), [(3, 120); (6, 125)], [(0, 100); (3, 120)]. repeat split.
Qed.

(** A missing first or last reading of a chunk loses that chunk. *)
Theorem C16_cumulative_missing_refuted : exists columns rows section msp t t',
  uses_column columns Active CumulativeEnergy 0 /\ increasing rows /\ half_open section /\ usable section /\
  total_energy_of columns msp Active (hdf_load rows tf_cleared [section] 0 2) = Ok t /\
  total_energy_of columns msp Active (hdf_load rows tf_cleared [section] 0 100) = Ok t' /\ t = 0 /\ t' = 30.
Proof. exact cumulative_missing. Qed.
Print Assumptions C16_cumulative_missing_refuted.

(** With energy per interval the total is the sum of the readings plus, once
    more, the first reading of every chunk of a section but the section's first. *)
Theorem C16_interval_total_partial : forall columns msp a k rows window sections ms n c,
  uses_column columns a Energy k ->
  increasing rows -> (1 <= c)%nat -> half_open window ->
  Forall half_open sections -> Forall usable sections -> no_overlap sections ->
  Forall2 (visible rows window) sections ms -> Forall2 (servable rows window c) sections ms ->
  exists css, hdf_load rows window sections n c = (concat css, None) /\ Forall2 (section_served c) ms css /\
  total_energy_of columns msp a (hdf_load rows window sections n c) =
  Ok (readings_sum k (concat ms) + readings_sum k (concat (map (fun cs => concat (map (fun ch => firstn 1 (c_rows ch)) (tl cs))) css))).
Proof. exact load_interval. Qed.
Print Assumptions C16_interval_total_partial.

(** It is the sum of the readings when every section fits in one chunk. *)
Theorem C16_one_chunk : forall columns msp a k rows window sections ms n c,
  uses_column columns a Energy k ->
  increasing rows -> (1 <= c)%nat -> half_open window ->
  Forall half_open sections -> Forall usable sections -> no_overlap sections ->
  Forall2 (visible rows window) sections ms -> Forall2 (servable rows window c) sections ms ->
  (length rows <= c)%nat ->
  total_energy_of columns msp a (hdf_load rows window sections n c) = Ok (readings_sum k (concat ms)).
Proof. exact load_interval_one. Qed.
Print Assumptions C16_one_chunk.

(** It is not in general: the total depends on the chunk size. *)
Theorem C16_interval_refuted : exists columns rows section msp,
  uses_column columns Active Energy 0 /\ increasing rows /\ half_open section /\ usable section /\ visible rows tf_cleared section rows /\
  readings_sum 0 rows = 10 /\
  total_energy_of columns msp Active (hdf_load rows tf_cleared [section] 0 100) = Ok 10 /\
  total_energy_of columns msp Active (hdf_load rows tf_cleared [section] 0 1) = Ok 15.
Proof. exact interval_double. Qed.
Print Assumptions C16_interval_refuted.
