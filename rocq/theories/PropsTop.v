(** C37: energy accounting of a group and the selection of the top meters. *)
From Coq Require Import QArith Permutation Sorted Lia Lqa.
From Verif Require Import Base TopModel TopSpec TopProofs.
Open Scope Q_scope.

Definition ex_meters : list emeter :=
  [mkEmeter 1 [Some 3; None; None]; mkEmeter 2 [None; None; None]; mkEmeter 3 [Some 4; Some 5; None]; mkEmeter 4 [None; Some 2; None]].

Lemma total_spec ms es : Forall2 energy_is ms es -> qsum (valid_of es) == total_energy ms.
Proof.
  unfold total_energy, series_sum. induction 1 as [|m e ms es H _ IH]; [reflexivity|]. cbn [map]. assert (U := energy_unique m e (meter_energy m) H (meter_energy_is m)).
  unfold valid_of in *. cbn [flat_map]. destruct e as [q|], (meter_energy m) as [q'|]; try contradiction; cbn [app qsum fold_right]; [fold qsum; rewrite U|]; fold (qsum (flat_map (fun x => match x with Some q => [q] | None => [] end) es)); fold (qsum (flat_map (fun x => match x with Some q => [q] | None => [] end) (map meter_energy ms))); rewrite IH; reflexivity.
Qed.

(** The fractions add up to one; a meter without any energy reading has none. *)
Theorem C37_fractions : forall (ms : list emeter) (es : list (option Q)), Forall2 energy_is ms es -> ~ qsum (valid_of es) == 0 ->
  exists fs : list (option Q), fraction_per_meter ms = combine (map e_id ms) (map (fun f => match f with Some q => Fin q | None => NaN end) fs) /\
    Forall2 (fun e f => match e, f with Some q, Some x => q == x * qsum (valid_of es) | None, None => True | _, _ => False end) es fs /\
    qsum (valid_of fs) == 1.
Proof.
  intros ms es H HZ. assert (T := total_spec ms es H). rewrite T in HZ. exists (map (fun m => match meter_energy m with Some q => Some (q / total_energy ms) | None => None end) ms). split; [|split].
  - unfold fraction_per_meter. generalize (total_energy ms) HZ. clear. intros t HZ. induction ms as [|m ms IH]; [reflexivity|]. cbn [map combine]. rewrite IH. f_equal. f_equal. destruct (meter_energy m) as [q|]; cbn [divide]; [|reflexivity]. destruct (Qeq_bool t 0) eqn:E; [apply Qeq_bool_iff in E; contradiction|reflexivity].
  - revert T HZ. generalize (total_energy ms) as t. generalize (qsum (valid_of es)) as s. intros s t T HZ. induction H as [|m e ms es H _ IH]; [constructor|]. cbn [map]. constructor; [|exact IH]. assert (U := energy_unique m e (meter_energy m) H (meter_energy_is m)). destruct e as [q|], (meter_energy m) as [q'|]; try contradiction; try exact I. rewrite U, T. field. exact HZ.
  - assert (E : valid_of (map (fun m => match meter_energy m with Some q => Some (q / total_energy ms) | None => None end) ms) = map (fun q => q / total_energy ms) (valid_of (map meter_energy ms))).
    { generalize (total_energy ms) as t. intros t. clear. induction ms as [|m ms IH]; [reflexivity|]. unfold valid_of in *. cbn [map flat_map]. rewrite map_app, IH. destruct (meter_energy m); reflexivity. }
    rewrite E, qsum_div by exact HZ. change (qsum (valid_of (map meter_energy ms))) with (total_energy ms). field. exact HZ.
Qed.
Print Assumptions C37_fractions.
Example C37_fractions_example : Forall2 energy_is ex_meters [Some 3; None; Some 5; Some 2] /\ fraction_per_meter ex_meters = [(1%nat, Fin (3 / 10)); (2%nat, NaN); (3%nat, Fin (5 / 10)); (4%nat, Fin (2 / 10))].
Proof.
  split; [|reflexivity]. repeat (apply Forall2_cons || apply Forall2_nil); cbn; try (split; [tauto|]; intros q' H; repeat (destruct H as [H|H]; [first [discriminate H|injection H as <-; lra]|]); destruct H). intuition.
Qed.

(** select_top_k with any number of meters asked for (also a negative one: all but
    the last) puts every meter either into the selection or into the remainder. *)
Theorem C37_top_partition : forall sort (ms : list emeter) (k : Z) (asc : bool), sorts sort -> NoDup (map e_id ms) ->
  exists top rest, select_top_k sort ms k asc true = Ok (top, Some rest) /\ select_top_k sort ms k asc false = Ok (top, None) /\ Permutation (top ++ rest) ms /\
    ((0 <= k)%Z -> length top = Nat.min (Z.to_nat k) (length ms)) /\
    ((k < 0)%Z -> length top = (length ms - Z.to_nat (- k))%nat).
Proof.
  intros sort ms k asc HS ND. destruct (top_thm sort ms HS ND k asc true) as (top & rest & E & P & M1 & M2). exists top, rest. split; [exact E|]. split; [|split; [exact P|]].
  - unfold select_top_k in *. destruct (from_list ms (map fst (slice_to k (sort asc (fraction_per_meter ms))))) as [t|]; [|discriminate]. cbn [bind] in *. destruct (from_list ms (map fst (slice_from k (sort asc (fraction_per_meter ms))))); [|discriminate]. cbn [bind] in E. congruence.
  - assert (EL : length (sort asc (fraction_per_meter ms)) = length ms) by (rewrite <- (map_length fst), (Permutation_length (sorted_ids sort ms HS asc)), map_length; reflexivity).
    split; intros HK; rewrite <- (map_length e_id top), M1, map_length; unfold slice_to, cut; destruct (Z.ltb_spec k 0); try lia; rewrite firstn_length, EL; lia.
Qed.
Print Assumptions C37_top_partition.

(** If the total is positive, no unselected meter is to be preferred to a selected one. *)
Theorem C37_top_best : forall sort (ms : list emeter) (es : list (option Q)) (k : Z) (asc : bool) (top rest : list emeter), sorts sort -> NoDup (map e_id ms) -> Forall2 energy_is ms es -> 0 < qsum (valid_of es) ->
  select_top_k sort ms k asc true = Ok (top, Some rest) -> forall x y e e', In x top -> In y rest -> energy_is x e -> energy_is y e' -> preferred asc e e'.
Proof.
  intros sort ms es k asc top rest HS ND HE HT R x y e e' Hx Hy Ex Ey. rewrite (total_spec ms es HE) in HT.
  destruct (top_thm sort ms HS ND k asc true) as (top' & rest' & E & P & M1 & M2). assert (X := eq_trans (eq_sym R) E). injection X as -> ->.
  assert (B := top_best sort ms HS ND HT k asc top' rest' M1 M2 P x y Hx Hy).
  assert (U := energy_unique x e _ Ex (meter_energy_is x)). assert (V := energy_unique y e' _ Ey (meter_energy_is y)).
  destruct e as [a|], (meter_energy x) as [a'|], e' as [b|], (meter_energy y) as [b'|]; try contradiction; cbn in *; try exact I; try contradiction.
  destruct asc; rewrite U, V; exact B.
Qed.
Print Assumptions C37_top_best.

(** An order as sort_values may produce it. *)
Definition num_leb (x y : num) : bool :=
  match x, y with
  | Fin a, Fin b => Qle_bool a b
  | Inf true, (Fin _ | Inf _) => true
  | (Fin _ | Inf _), Inf false => true
  | _, _ => false
  end.
Definition before (asc : bool) (x y : num) : bool := match y with NaN => true | _ => if asc then num_leb x y else num_leb y x end.
Fixpoint ins (asc : bool) (x : nat * num) (l : list (nat * num)) : list (nat * num) :=
  match l with [] => [x] | y :: r => if before asc (snd x) (snd y) then x :: l else y :: ins asc x r end.
Definition isort (asc : bool) (l : list (nat * num)) : list (nat * num) := fold_right (ins asc) [] l.
Lemma isort_sorts : sorts isort.
Proof.
  assert (LE : forall x y, num_leb x y = true <-> num_le x y). { intros [|a|[]] [|b|[]]; cbn; try tauto; try (split; [discriminate|tauto]); rewrite Qle_bool_iff; tauto. }
  assert (B : forall asc x y, before asc x y = true <-> may_precede asc x y). { intros asc x [|b|n]; unfold before, may_precede; [tauto| |]; destruct asc; apply LE. }
  assert (TOT : forall asc x y, before asc x y = false -> may_precede asc y x).
  { intros asc x y H. destruct (before asc y x) eqn:E; [apply B; exact E|]. exfalso. destruct asc, x as [|a|[]], y as [|b|[]]; cbn in *; try discriminate; assert (A1 : ~ a <= b) by (rewrite <- Qle_bool_iff; congruence); assert (A2 : ~ b <= a) by (rewrite <- Qle_bool_iff; congruence); lra. }
  assert (TR : forall asc x y z, may_precede asc x y -> may_precede asc y z -> may_precede asc x z).
  { intros [] [|a|[]] [|b|[]] [|c|[]]; cbn; try tauto; intros; lra. }
  intros asc l. induction l as [|x l [P S]]; cbn [isort fold_right]; [split; constructor|]. change (fold_right (ins asc) [] l) with (isort asc l). split.
  - rewrite P at 1. generalize (isort asc l). intros r. induction r as [|y r IH]; cbn; [reflexivity|]. destruct (before asc (snd x) (snd y)); [reflexivity|]. rewrite perm_swap. constructor. exact IH.
  - clear P. revert S. generalize (isort asc l). intros r S. induction S as [|y r S IH F]; cbn; [constructor; constructor|]. destruct (before asc (snd x) (snd y)) eqn:E.
    + apply B in E. constructor; [constructor; assumption|]. constructor; [exact E|]. eapply Forall_impl; [|exact F]. intros z Hz. eapply TR; eassumption.
    + constructor; [exact IH|]. apply TOT in E. clear IH. induction r as [|z r IHr]; cbn; [constructor; [exact E|constructor]|]. inversion_clear F as [|p q F1 F2]. apply StronglySorted_inv in S. destruct S as [S _]. destruct (before asc (snd x) (snd z)); [constructor; [exact E|constructor; assumption]|]. constructor; [exact F1|auto].
Qed.
Example C37_top_example : sorts isort /\ NoDup (map e_id ex_meters) /\
  select_top_k isort ex_meters 2 false true = Ok ([mkEmeter 3 [Some 4; Some 5; None]; mkEmeter 1 [Some 3; None; None]], Some [mkEmeter 4 [None; Some 2; None]; mkEmeter 2 [None; None; None]]).
Proof. split; [exact isort_sorts|]. split; [repeat constructor; cbn; intuition discriminate|reflexivity]. Qed.

(** With a negative total (a group exporting energy) the order is reversed. *)
Theorem C37_negative_refuted : exists ms : list emeter, NoDup (map e_id ms) /\ forall sort, sorts sort -> exists x y, select_top_k sort ms 1 false true = Ok ([x], Some [y]) /\
  energy_is x (Some (-3)) /\ energy_is y (Some 1).
Proof.
  exists [mkEmeter 1 [Some (-3)]; mkEmeter 2 [Some 1]]. split; [repeat constructor; cbn; intuition discriminate|]. intros sort HS.
  assert (E : sort false (fraction_per_meter [mkEmeter 1 [Some (-3)]; mkEmeter 2 [Some 1]]) = fraction_per_meter [mkEmeter 1 [Some (-3)]; mkEmeter 2 [Some 1]]).
  { destruct (HS false (fraction_per_meter [mkEmeter 1 [Some (-3)]; mkEmeter 2 [Some 1]])) as [P S]. cbn -[Qdiv] in P. set (l := sort false _) in *. cbn -[Qdiv]. apply Permutation_length_2_inv in P. destruct P as [->| ->]; [reflexivity|]. exfalso. apply StronglySorted_inv in S. destruct S as [_ F]. inversion_clear F as [|a b F1 _]. vm_compute in F1. apply F1. reflexivity. }
  exists (mkEmeter 1 [Some (-3)]), (mkEmeter 2 [Some 1]). split; [unfold select_top_k; rewrite E; reflexivity|]. split; cbn; (split; [auto|]); intros q' [H|[]]; injection H as <-; lra.
Qed.
Print Assumptions C37_negative_refuted.

(** energy_per_meter with mains: the remainder is mains minus the meters, provided pandas has
    Series.sort, *)
Theorem C37_remainder : forall pick (ms : list emeter) (q : Q) (others : list (option Q)), ms <> [] ->
  exists sums, energy_with_remainder true pick ms (Some q :: others) = Ok (sums, Some (q - qsum (map (fun m => qsum (valid_of (e_energies m))) ms))) /\ sums = map (fun m => (e_id m, qsum (valid_of (e_energies m)))) ms.
Proof.
  intros pick ms q others H. eexists. split; [|reflexivity]. unfold energy_with_remainder, most_common. destruct ms as [|m ms]; [congruence|]. cbn [map bind]. rewrite map_map. reflexivity.
Qed.
Print Assumptions C37_remainder.
Example C37_remainder_example : exists sums r, energy_with_remainder true (fun l => hd 0%nat l) ex_meters [Some 20; None] = Ok (sums, Some r) /\ r == 6.
Proof. eexists. eexists. split; reflexivity. Qed.

(** There is a remainder exactly if the mains have an energy; without any energy of the mains
    it raises. *)
Theorem C37_remainder_missing : forall pick (ms : list emeter) (mains : list (option Q)), ms <> [] ->
  (mains = [] <-> energy_with_remainder true pick ms mains = Err IndexError) /\
  ((exists others, mains = None :: others) <-> exists sums, energy_with_remainder true pick ms mains = Ok (sums, None)) /\
  ((exists q others, mains = Some q :: others) <-> exists sums r, energy_with_remainder true pick ms mains = Ok (sums, Some r)).
Proof.
  intros pick ms mains H. unfold energy_with_remainder, most_common. destruct ms as [|m ms]; [congruence|]. cbn [map bind].
  destruct mains as [|[q|] others]; (split; [|split]); split; intros K; try discriminate; try reflexivity; try (destruct K as (? & ? & K); discriminate); try (destruct K as (? & K); discriminate); eauto.
Qed.
Print Assumptions C37_remainder_missing.
Example C37_remainder_missing_example : exists sums, energy_with_remainder true (fun l => hd 0%nat l) ex_meters [None; Some 20] = Ok (sums, None).
Proof. eexists. reflexivity. Qed.

(** but the pandas that the project requires (2.0 or later) has not: nothing is ever
    returned. *)
Theorem C37_remainder_refuted : forall pick (ms : list emeter) (mains : list (option Q)), energy_with_remainder false pick ms mains = Err AttributeError.
Proof. reflexivity. Qed.
Print Assumptions C37_remainder_refuted.
