(** C88: the total energy of a meter, computed in floating point. *)
From Coq Require Import Reals List Permutation Lra Lia.
From Verif Require Import Base TimeFrameModel ResultsModel StoreModel StoreSpec EnergyModel EnergySpec EnergyProofs RoundModel RoundSpec RoundFormat RoundProofs RoundProofs2 RoundDouble RoundProofs3.
Import ListNotations.
Open Scope R_scope.

(** The computed energy differs from the exact one by at most a small part of the energy of
    the amounts of the readings, in whatever order numpy and pandas add. *)
Theorem C88_bound : forall u rnd msp h chunks o, 0 <= u <= 1 -> rounds u rnd -> 0 <= msp ->
  Forall (chunk_ok h) chunks -> each_once (length chunks) o ->
  Rabs (meter_energy rnd msp chunks o - exact_meter msp (map fst chunks)) <=
    ((1 + u) ^ (h + depth o + 4) - 1) * exact_meter msp (map (fun c => amounts (fst c)) chunks).
Proof. exact meter_bound. Qed.
Print Assumptions C88_bound.

(** When no reading is negative that is a small part of the energy itself. *)
Theorem C88_relative : forall u rnd msp h chunks o, 0 <= u <= 1 -> rounds u rnd -> 0 <= msp ->
  Forall (chunk_ok h) chunks -> each_once (length chunks) o -> Forall (fun c => nonnegative (fst c)) chunks ->
  INR (h + depth o + 4) * u <= / 2 ->
  Rabs (meter_energy rnd msp chunks o - exact_meter msp (map fst chunks)) <= 2 * INR (h + depth o + 4) * u * exact_meter msp (map fst chunks).
Proof. exact meter_relative. Qed.
Print Assumptions C88_relative.

(** Two ways of adding the same readings give nearly the same energy. *)
Theorem C88_order : forall u rnd msp h chunks chunks' o o', 0 <= u <= 1 -> rounds u rnd -> 0 <= msp ->
  map fst chunks = map fst chunks' ->
  Forall (chunk_ok h) chunks -> each_once (length chunks) o -> Forall (chunk_ok h) chunks' -> each_once (length chunks') o' ->
  (depth o' <= depth o)%nat -> Forall (fun c => nonnegative (fst c)) chunks -> INR (h + depth o + 4) * u <= / 2 ->
  Rabs (meter_energy rnd msp chunks o - meter_energy rnd msp chunks' o') <= 4 * INR (h + depth o + 4) * u * exact_meter msp (map fst chunks).
Proof. exact meter_order. Qed.
Print Assumptions C88_order.

(** Whole watts at whole seconds: when the amounts of energy add up to no more joules than the
    rounding keeps, the result is the exact energy in joules, divided by 3600000 and rounded
    once; the order of the additions does not matter at all. *)
Theorem C88_whole : forall n rnd msp s w o e m, keeps_whole n rnd -> monotone rnd ->
  whole s w -> increasing w -> (0 <= msp)%Z -> (msp * 1000000000 <= n)%Z ->
  is_energy msp w e -> is_energy msp (map (fun x => (fst x, Z.abs (snd x))) w) m -> (m <= n)%Z ->
  each_once (length (neighbours s)) o ->
  power_energy rnd (IZR msp) s o = rnd (IZR e / 3600000).
Proof. intros n rnd msp s w o e m K M. exact (power_whole n rnd K M msp s w o e m). Qed.
Print Assumptions C88_whole.

(** The exact energy of C88 is the integral of C15. *)
Theorem C88_exact : forall msp s w e, whole s w -> increasing w -> (0 <= msp)%Z -> is_energy msp w e ->
  exact_kwh (IZR msp) s = IZR e / 3600000.
Proof. exact exact_integral. Qed.
Print Assumptions C88_exact.

(** Readings that are not negative never give a negative energy. *)
Theorem C88_sign : forall u rnd msp chunks o, 0 <= u <= 1 -> rounds u rnd -> 0 <= msp ->
  Forall (fun c => forward (fst c) /\ nonnegative (fst c)) chunks -> 0 <= meter_energy rnd msp chunks o.
Proof. exact meter_sign. Qed.
Print Assumptions C88_sign.

(** No power gives no energy, exactly. *)
Theorem C88_zero : forall u rnd msp h chunks o, 0 <= u <= 1 -> rounds u rnd -> 0 <= msp ->
  Forall (chunk_ok h) chunks -> each_once (length chunks) o ->
  Forall (fun c => forall t v, In (t, Some v) (fst c) -> v = 0) chunks -> meter_energy rnd msp chunks o = 0.
Proof. exact meter_zero. Qed.
Print Assumptions C88_zero.

(** Larger readings never give a smaller energy, rounding included, when they are added in
    the same order. *)
Theorem C88_monotone : forall u rnd msp chunks chunks' o, 0 <= u <= 1 -> rounds u rnd -> monotone rnd -> 0 <= msp ->
  Forall (fun c => forward (fst c)) chunks ->
  Forall2 (fun c c' => at_most (fst c) (fst c') /\ snd c = snd c') chunks chunks' ->
  meter_energy rnd msp chunks o <= meter_energy rnd msp chunks' o.
Proof. exact meter_mono. Qed.
Print Assumptions C88_monotone.

(** Columns with energies: the differences of a cumulative column have one rounding, the sums
    of an energy column one for each addition of the longest chain. *)
Theorem C88_columns : forall u rnd, 0 <= u <= 1 -> rounds u rnd ->
  (forall s e, cumulative_energy rnd s = Ok e -> exists first last r r', s = first :: r /\ s = r' ++ [last] /\
     Rabs (e - (snd last - snd first)) <= u * Rabs (snd last - snd first)) /\
  (forall s o, each_once (length (there s)) o ->
     Rabs (sum_energy rnd s o - sum_R (map snd (there s))) <= ((1 + u) ^ depth o - 1) * sum_R (map (fun x => Rabs (snd x)) (there s))).
Proof. exact other_columns. Qed.
Print Assumptions C88_columns.

(** In double precision, with fewer than 2^50 additions one after the other, the energy of
    readings that are not negative is right to within that number times 2^-52. *)
Theorem C88_double : forall msp h chunks o, 0 <= msp ->
  Forall (chunk_ok h) chunks -> each_once (length chunks) o -> Forall (fun c => nonnegative (fst c)) chunks ->
  (Z.of_nat (h + depth o + 4) <= 1125899906842624)%Z ->
  Rabs (meter_energy double msp chunks o - exact_meter msp (map fst chunks)) <=
    INR (h + depth o + 4) / 4503599627370496 * exact_meter msp (map fst chunks).
Proof. exact double_relative. Qed.
Print Assumptions C88_double.

(** Double precision meets the assumptions of the theorems above. *)
Theorem C88_double_rounds : rounds (/ 9007199254740992) double /\ monotone double /\ keeps_whole 9007199254740992 double.
Proof. exact (conj double_rounds (conj double_monotone double_whole)). Qed.
Print Assumptions C88_double_rounds.

(** Readings of both signs (a meter of a house with solar panels): the energy can be lost
    entirely, and depends on the order of the additions. *)
Theorem C88_signs_refuted : exists msp s o o', 0 <= msp /\ forward s /\
  each_once (length (neighbours s)) o /\ each_once (length (neighbours s)) o' /\
  0 < exact_kwh msp s /\ power_energy double msp s o = 0 /\ 0 < power_energy double msp s o'.
Proof. exact signs_lost. Qed.
Print Assumptions C88_signs_refuted.

(** Three readings, one missing, in two chunks. *)
Example C88_example :
  let a := [(0%Z, Some 100); (1000000000%Z, None); (2500000000%Z, Some 40); (60000000000%Z, Some 7)] in
  let b := [(0%Z, Some 3); (1000000000%Z, Some 0)] in
  let chunks := [(a, Plus (At 1) (At 0)); (b, At 0)] in
  Forall (chunk_ok 1) chunks /\ each_once (length chunks) (Plus (At 0) (At 1)) /\ Forall (fun c => nonnegative (fst c)) chunks /\
  exact_meter 10 (map fst chunks) = (2.5 * 100 + 10 * 40 + 3) / 3600000 /\
  INR (1 + depth (Plus (At 0) (At 1)) + 4) * / 9007199254740992 <= / 2.
Proof. exact example_chunks. Qed.

(** Whole readings. *)
Example C88_example_whole : exists s w e,
  whole s w /\ increasing w /\ is_energy 10 w e /\ (e = 380)%Z /\
  is_energy 10 (map (fun x => (fst x, Z.abs (snd x))) w) 420 /\ each_once (length (neighbours s)) (Plus (At 1) (At 0)).
Proof. exact example_whole. Qed.
