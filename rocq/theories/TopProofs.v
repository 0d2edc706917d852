From Coq Require Import QArith Permutation Sorted Lia Lqa.
From Verif Require Import Base TopModel TopSpec.
Open Scope Q_scope.

Lemma qmax_spec x y : x <= qmax x y /\ y <= qmax x y /\ (qmax x y = x \/ qmax x y = y).
Proof. unfold qmax. destruct (Qle_bool x y) eqn:E; [apply Qle_bool_iff in E; repeat split; auto; lra|]. assert (~ x <= y) by (rewrite <- Qle_bool_iff; congruence). repeat split; auto; lra. Qed.
Lemma fold_max r : forall x, In (fold_left qmax r x) (x :: r) /\ forall y, In y (x :: r) -> y <= fold_left qmax r x.
Proof.
  induction r as [|z r IH]; intros x; cbn [fold_left].
  - split; [left; reflexivity|]. intros y [<-|[]]. lra.
  - destruct (qmax_spec x z) as (A & B & C). destruct (IH (qmax x z)) as [I M]. split.
    + destruct I as [I|I]; [|right; right; exact I]. rewrite <- I. destruct C as [-> | ->]; [left|right; left]; reflexivity.
    + assert (X := M (qmax x z) (or_introl eq_refl)). intros y [<-|[<-|H]]; [lra|lra|]. apply M. right. exact H.
Qed.
Lemma valid_in l q : In q (valid_of l) <-> In (Some q) l.
Proof.
  unfold valid_of. rewrite in_flat_map. split.
  - intros ([x|] & H & I); [destruct I as [<-|[]]; exact H|destruct I].
  - intros H. exists (Some q). split; [exact H|left; reflexivity].
Qed.
Lemma meter_energy_is m : energy_is m (meter_energy m).
Proof.
  unfold meter_energy, series_max, energy_is. destruct (valid_of (e_energies m)) as [|x r] eqn:E.
  - intros [q|] H; [|reflexivity]. apply valid_in in H. rewrite E in H. destruct H.
  - destruct (fold_max r x) as [I M]. rewrite <- E in I. split; [apply valid_in; exact I|]. intros q' H. apply M. rewrite <- E. apply valid_in. exact H.
Qed.
Lemma energy_unique m e e' : energy_is m e -> energy_is m e' -> match e, e' with None, None => True | Some q, Some q' => q == q' | _, _ => False end.
Proof.
  destruct e as [q|], e' as [q'|]; cbn; intros H H'; try exact I.
  - destruct H as [A B], H' as [A' B']. apply Qle_antisym; auto.
  - destruct H as [A _]. apply H' in A. discriminate.
  - destruct H' as [A _]. apply H in A. discriminate.
Qed.

(** fractions *)
Lemma qsum_div l d : ~ d == 0 -> qsum (map (fun q => q / d) l) == qsum l / d.
Proof. intros H. induction l as [|x l IH]; cbn [map qsum fold_right]; [field; exact H|]. fold (qsum (map (fun q => q / d) l)). fold (qsum l). rewrite IH. field. exact H. Qed.
Lemma finite_div l d : ~ d == 0 -> map (fun x => divide x d) l = map (fun x => match x with Some q => Fin (q / d) | None => NaN end) l.
Proof. intros H. apply map_ext. intros [q|]; cbn; [|reflexivity]. destruct (Qeq_bool d 0) eqn:E; [apply Qeq_bool_iff in E; contradiction|reflexivity]. Qed.

(** from_list *)
Lemma get_meter_in ms i : NoDup (map e_id ms) -> forall m, In m ms -> e_id m = i -> get_meter ms i = Ok m.
Proof.
  induction ms as [|a ms IH]; intros ND m H E; [destruct H|]. cbn in ND. inversion_clear ND as [|p q N ND']. cbn [get_meter]. destruct H as [->|H].
  - rewrite E, Nat.eqb_refl. reflexivity.
  - destruct (Nat.eqb_spec (e_id a) i) as [X|X]; [|auto]. exfalso. apply N. rewrite X, <- E. apply in_map. exact H.
Qed.
Lemma from_list_thm ms ids : NoDup (map e_id ms) -> NoDup ids -> incl ids (map e_id ms) -> forall done, (forall i, In i ids -> ~ In i done) ->
  exists l, from_list_onto ms done ids = Ok l /\ map e_id l = ids /\ incl l ms.
Proof.
  intros NM. induction ids as [|i ids IH]; intros ND HI done HD; cbn [from_list_onto].
  - exists []. repeat split. intros x [].
  - inversion_clear ND as [|p q N ND'].
    assert (E : existsb (Nat.eqb i) done = false). { destruct (existsb (Nat.eqb i) done) eqn:E; [|reflexivity]. apply existsb_exists in E. destruct E as (j & Hj & Ej). apply Nat.eqb_eq in Ej. subst j. exfalso. apply (HD i); [left; reflexivity|exact Hj]. }
    rewrite E. destruct (proj1 (in_map_iff e_id ms i) (HI i (or_introl eq_refl))) as (m & Em & Hm). rewrite (get_meter_in ms i NM m Hm Em). cbn [bind].
    destruct (IH ND' (fun x Hx => HI x (or_intror Hx)) (i :: done)) as (l & -> & EL & IL). { intros j Hj [<-|X]; [contradiction|]. apply (HD j); [right; exact Hj|exact X]. }
    cbn [bind]. exists (m :: l). split; [reflexivity|]. split; [cbn; rewrite Em, EL; reflexivity|]. intros x [<-|Hx]; auto.
Qed.
Lemma id_inj ms x y : NoDup (map e_id ms) -> In x ms -> In y ms -> e_id x = e_id y -> x = y.
Proof. intros ND Hx Hy E. assert (A := get_meter_in ms (e_id x) ND x Hx eq_refl). assert (B := get_meter_in ms (e_id x) ND y Hy (eq_sym E)). congruence. Qed.
Lemma perm_of_ids ms l : NoDup (map e_id ms) -> incl l ms -> Permutation (map e_id l) (map e_id ms) -> Permutation l ms.
Proof.
  intros ND HI HP. apply NoDup_Permutation.
  - apply NoDup_map_inv with (f := e_id). eapply Permutation_NoDup; [symmetry; exact HP|exact ND].
  - apply NoDup_map_inv with (f := e_id). exact ND.
  - intros x. split; [apply HI|]. intros Hx. assert (H : In (e_id x) (map e_id l)) by (eapply Permutation_in; [symmetry; exact HP|apply in_map; exact Hx]). apply in_map_iff in H. destruct H as (y & E & Hy). rewrite (id_inj ms x y ND Hx (HI y Hy) (eq_sym E)). exact Hy.
Qed.

Section Top.
  Variable sort : bool -> list (nat * num) -> list (nat * num).
  Variable ms : list emeter.
  Hypothesis HS : sorts sort.
  Hypothesis ND : NoDup (map e_id ms).

  Lemma ids_fraction : map fst (fraction_per_meter ms) = map e_id ms.
  Proof. unfold fraction_per_meter. rewrite map_map. reflexivity. Qed.
  Lemma sorted_ids asc : Permutation (map fst (sort asc (fraction_per_meter ms))) (map e_id ms).
  Proof. rewrite <- ids_fraction. apply Permutation_map. symmetry. apply HS. Qed.
  Lemma slices (k : Z) (l : list (nat * num)) : slice_to k l ++ slice_from k l = l.
  Proof. apply firstn_skipn. Qed.

  Lemma top_thm k asc remainder : exists top rest, select_top_k sort ms k asc remainder = Ok (top, if remainder then Some rest else None) /\
    Permutation (top ++ rest) ms /\ map e_id top = map fst (slice_to k (sort asc (fraction_per_meter ms))) /\ map e_id rest = map fst (slice_from k (sort asc (fraction_per_meter ms))).
  Proof.
    set (s := sort asc (fraction_per_meter ms)). assert (P := sorted_ids asc). fold s in P. rewrite <- (slices k s), map_app in P.
    assert (NDs : NoDup (map fst (slice_to k s) ++ map fst (slice_from k s))) by (eapply Permutation_NoDup; [symmetry; exact P|exact ND]).
    assert (N12 : NoDup (map fst (slice_to k s)) /\ NoDup (map fst (slice_from k s))).
    { clear -NDs. induction (map fst (slice_to k s)) as [|a l IH]; [split; [constructor|exact NDs]|]. cbn in NDs. inversion_clear NDs as [|p q N H]. destruct (IH H). split; [constructor; [|assumption]|assumption]. intros X. apply N. rewrite in_app_iff. auto. }
    destruct N12 as [N1 N2].
    destruct (from_list_thm ms (map fst (slice_to k s)) ND N1) with (done := @nil nat) as (top & E1 & M1 & I1); [intros x Hx; eapply Permutation_in; [exact P|rewrite in_app_iff; auto]|intros i _ []|].
    destruct (from_list_thm ms (map fst (slice_from k s)) ND N2) with (done := @nil nat) as (rest & E2 & M2 & I2); [intros x Hx; eapply Permutation_in; [exact P|rewrite in_app_iff; auto]|intros i _ []|].
    exists top, rest. split; [|split; [|split; assumption]].
    - unfold select_top_k. fold s. unfold from_list. rewrite E1. cbn [bind]. destruct remainder; [rewrite E2|]; reflexivity.
    - apply perm_of_ids; [exact ND|intros x Hx; apply in_app_iff in Hx; destruct Hx; auto|]. rewrite map_app, M1, M2. exact P.
  Qed.

  Hypothesis TP : 0 < total_energy ms.
  Lemma fraction_of m : In m ms -> forall v, In (e_id m, v) (fraction_per_meter ms) -> v = divide (meter_energy m) (total_energy ms).
  Proof.
    intros Hm v H. unfold fraction_per_meter in H. apply in_map_iff in H. destruct H as (m' & E & Hm'). injection E as E1 E2. rewrite <- E2. rewrite (id_inj ms m' m ND Hm' Hm E1). reflexivity.
  Qed.
  Lemma precede_preferred asc e e' : may_precede asc (divide e (total_energy ms)) (divide e' (total_energy ms)) -> preferred asc e e'.
  Proof.
    assert (Z : Qeq_bool (total_energy ms) 0 = false) by (destruct (Qeq_bool (total_energy ms) 0) eqn:E; [apply Qeq_bool_iff in E; lra|reflexivity]).
    assert (C : forall a b, a / total_energy ms <= b / total_energy ms -> a <= b).
    { intros a b H. apply (Qmult_le_compat_r _ _ (total_energy ms)) in H; [|lra]. setoid_replace (a / total_energy ms * total_energy ms) with a in H by (field; lra). setoid_replace (b / total_energy ms * total_energy ms) with b in H by (field; lra). exact H. }
    destruct e as [x|], e' as [y|]; cbn [divide preferred]; rewrite ?Z; cbn; try tauto; destruct asc; auto.
  Qed.
  Lemma sorted_app_precede asc (l r : list (nat * num)) a b : StronglySorted (fun a b => may_precede asc (snd a) (snd b)) (l ++ r) -> In a l -> In b r -> may_precede asc (snd a) (snd b).
  Proof.
    induction l as [|c l IH]; cbn [app]; intros H Ha Hb; [destruct Ha|]. apply StronglySorted_inv in H. destruct H as [H F]. destruct Ha as [->|Ha]; [|apply IH; assumption]. rewrite Forall_forall in F. apply F. rewrite in_app_iff. auto.
  Qed.
  Lemma top_best k asc top rest : map e_id top = map fst (slice_to k (sort asc (fraction_per_meter ms))) -> map e_id rest = map fst (slice_from k (sort asc (fraction_per_meter ms))) -> Permutation (top ++ rest) ms ->
    forall x y, In x top -> In y rest -> preferred asc (meter_energy x) (meter_energy y).
  Proof.
    intros M1 M2 P x y Hx Hy. destruct (HS asc (fraction_per_meter ms)) as [PS SS]. set (s := sort asc (fraction_per_meter ms)) in *.
    assert (X : In (e_id x) (map fst (slice_to k s))) by (rewrite <- M1; apply in_map; exact Hx). assert (Y : In (e_id y) (map fst (slice_from k s))) by (rewrite <- M2; apply in_map; exact Hy).
    apply in_map_iff in X, Y. destruct X as ((i & v) & Ei & Hv). destruct Y as ((j & w) & Ej & Hw). cbn [fst] in Ei, Ej. subst i j.
    assert (Mx : In x ms) by (eapply Permutation_in; [exact P|apply in_app_iff; auto]). assert (My : In y ms) by (eapply Permutation_in; [exact P|apply in_app_iff; auto]).
    assert (Fv : v = divide (meter_energy x) (total_energy ms)). { apply fraction_of; [exact Mx|]. eapply Permutation_in; [symmetry; exact PS|]. rewrite <- (slices k s). apply in_app_iff. auto. }
    assert (Fw : w = divide (meter_energy y) (total_energy ms)). { apply fraction_of; [exact My|]. eapply Permutation_in; [symmetry; exact PS|]. rewrite <- (slices k s). apply in_app_iff. auto. }
    apply precede_preferred. rewrite <- Fv, <- Fw. rewrite <- (slices k s) in SS. exact (sorted_app_precede asc _ _ _ _ SS Hv Hw).
  Qed.
End Top.
