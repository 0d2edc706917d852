(** C106: the correlation of the mains with the sum of the submeters. *)
From Coq Require Import QArith Reals Qreals Lra Lia.
From Verif Require Import Base CorrModel CorrSpec WiringModel WiringSpec HouseModel HouseSpec HouseProofs4.
Open Scope R_scope.

(** A building with several mains meters, all meters with a reading every [p] seconds, [n] + 1 in all: the
    result is Pearson's coefficient of the sum of the mains and the sum of the meters wired directly below
    them, over all readings but the last; NaN exactly if one of the two sums is constant. *)
Theorem C106_several_partial : forall midnight data power t0 p n reg ms top mains subs,
  regular midnight data power t0 p n ms -> (2 <= n)%nat -> one_building ms -> wired_below reg (map WLeaf ms) top ->
  chosen site ms mains -> chosen (directly_below reg top) ms subs -> (2 <= length mains)%nat ->
  exists c, mains_correlation midnight data reg ms = Ok c /\
    (forall r, c = CVal r <-> pearson (pairs power mains subs n) r) /\
    (c = CNaN <-> deviation (map fst (pairs power mains subs n)) = 0 \/ deviation (map snd (pairs power mains subs n)) = 0).
Proof. exact house_several. Qed.
Print Assumptions C106_several_partial.

(** With one mains meter it is that coefficient times a factor, which is there because the last reading of
    the mains counts and that of the submeters does not. *)
Theorem C106_one_partial : forall midnight data power t0 p n reg ms top mains subs,
  regular midnight data power t0 p n ms -> (2 <= n)%nat -> one_building ms -> wired_below reg (map WLeaf ms) top ->
  chosen site ms mains -> chosen (directly_below reg top) ms subs -> forall m r, mains = [m] -> pearson (pairs power [m] subs n) r ->
  mains_correlation midnight data reg ms =
    Ok (CVal (r * sqrt ((INR n - 1) * deviation (map (total power [m]) (seq 0 n)) / (INR n * deviation (map (total power [m]) (seq 0 (S n))))))).
Proof. exact house_one_pearson. Qed.
Print Assumptions C106_one_partial.

(** The readings of meters further down, and of meters that are not in the group, do not matter. *)
Theorem C106_nested : forall midnight data data' reg ms top, wired_below reg (map WLeaf ms) top ->
  (forall m, In m ms -> site m \/ directly_below reg top m -> data m = data' m) ->
  mains_correlation midnight data reg ms = mains_correlation midnight data' reg ms.
Proof. exact house_ext. Qed.
Print Assumptions C106_nested.

(** Without a mains meter in the group (the mains may be disabled), or with several buildings, it raises. *)
Theorem C106_no_mains : forall midnight data reg ms top, wired_below reg (map WLeaf ms) top -> one_building ms -> (forall m, In m ms -> ~ site m) ->
  mains_correlation midnight data reg ms = Err AttributeError.
Proof. exact house_no_mains. Qed.
Print Assumptions C106_no_mains.
Theorem C106_buildings : forall midnight data reg ms top, wired_below reg (map WLeaf ms) top -> ~ one_building ms ->
  mains_correlation midnight data reg ms = Err RuntimeError.
Proof. exact house_buildings. Qed.
Print Assumptions C106_buildings.

(** What is false of the code. *)
(** With one mains meter the factor is always less than 1: the size of the coefficient comes out too small. *)
Theorem C106_one_refuted : forall midnight data power t0 p n reg ms top mains subs,
  regular midnight data power t0 p n ms -> (2 <= n)%nat -> one_building ms -> wired_below reg (map WLeaf ms) top ->
  chosen site ms mains -> chosen (directly_below reg top) ms subs -> forall m r, mains = [m] -> pearson (pairs power [m] subs n) r ->
  exists f, 0 < f < 1 /\ mains_correlation midnight data reg ms = Ok (CVal (r * f)).
Proof. exact house_smaller. Qed.
Print Assumptions C106_one_refuted.
(** Even where the mains is the sum of the submeters at every time, the result is less than 1. *)
Theorem C106_perfect_refuted : forall midnight data power t0 p n reg ms top m subs,
  regular midnight data power t0 p n ms -> (2 <= n)%nat -> one_building ms -> wired_below reg (map WLeaf ms) top ->
  chosen site ms [m] -> chosen (directly_below reg top) ms subs ->
  (forall i, (i <= n)%nat -> Q2R (power m i) = total power subs i) -> 0 < deviation (map (total power subs) (seq 0 n)) ->
  exists r, mains_correlation midnight data reg ms = Ok (CVal r) /\ 0 < r < 1.
Proof. exact perfect. Qed.
Print Assumptions C106_perfect_refuted.
(** The reason: a group of one meter lacks the last sample of the meter. *)
Theorem C106_last_refuted : forall midnight data power t0 p n m, regular midnight data power t0 p n [m] -> (2 <= n)%nat ->
  exists c x, meter_series midnight p (data m) = [c ++ [x]] /\ length c = n /\ group_series midnight p [data m] = Ok [c].
Proof. exact group_of_one. Qed.
Print Assumptions C106_last_refuted.

(** A house: meters 1 and 2 are mains (or only 1), 3 hangs below them and 4 below 3.  Readings every 6
    seconds from 12 on. *)
Definition hx (inst : nat) (is_site : bool) (sub : option Z) : wmeter := mkWmeter inst (mkMid inst 1 7) is_site sub None.
Definition h1 := hx 1 true None.
Definition h2 := hx 2 true None.
Definition h3 := hx 3 false (Some 0%Z).
Definition h4 := hx 4 false (Some 3%Z).
Definition hpower (m : wmeter) (i : nat) : Q :=
  match i_instance (w_id m) with 1%nat => inject_Z (Z.of_nat i) | 2%nat => 0%Q | 3%nat => inject_Z (Z.of_nat i) | _ => 5%Q end.
Definition hdata (m : wmeter) : mdata := mkMd (map (fun i => ((12 + Z.of_nat i * 6)%Z, hpower m i)) (seq 0 3)) 6 6.
Lemma hregular ms : regular (fun _ => 0%Z) hdata hpower 12 6 2 ms.
Proof. split; [lia|]. split; [exists 2%Z; reflexivity|]. intros m _. split; reflexivity. Qed.
Lemma hwired (mains : list wmeter) top : (mains = [h1] /\ top = WMeter h1) \/ (mains = [h1; h2] /\ top = WGroup [h1; h2]) ->
  wired_below (register_all (mains ++ [h3; h4])) (map WLeaf (mains ++ [h3; h4])) top /\
  chosen site (mains ++ [h3; h4]) mains /\ chosen (directly_below (register_all (mains ++ [h3; h4])) top) (mains ++ [h3; h4]) [h3] /\ one_building (mains ++ [h3; h4]).
Proof.
  intros C. split; [|split; [|split]].
  - destruct C as [[-> ->]|[-> ->]]; (split; [repeat constructor; cbn; intuition discriminate|]; split; [|split; [|split]]).
    + intros m I. cbn in I. repeat destruct I as [<-|I]; try destruct I; eexists; reflexivity.
    + exists h3, (WMeter h1). split; [cbn; auto|]. split; reflexivity.
    + intros m n I H E. cbn in I. unfold hangs in H. cbn in E. repeat destruct I as [<-|I]; try destruct I; cbn in E, H; try discriminate.
    + intros m n I H. cbn in I. unfold hangs in H. destruct I as [<-|[<-|[<-|[]]]]; cbn in H; try discriminate H; injection H as <-; [left; reflexivity|right; exists h3, (WMeter h1); split; [cbn; auto|]; split; reflexivity].
    + intros m I. cbn in I. repeat destruct I as [<-|I]; try destruct I; eexists; reflexivity.
    + exists h3, (WGroup [h1; h2]). split; [cbn; auto|]. split; [reflexivity|]. cbn. intros i. tauto.
    + intros m n I H E. destruct E.
    + intros m n I H. cbn in I. unfold hangs in H. destruct I as [<-|[<-|[<-|[<-|[]]]]]; cbn in H; try discriminate H; injection H as <-; [left; cbn; intros i; tauto|right; exists h3, (WGroup [h1; h2]); split; [cbn; auto|]; split; reflexivity].
  - exists w_site. split; [intros m; reflexivity|]. destruct C as [[-> _]|[-> _]]; reflexivity.
  - exists (fun m => match upstream (register_all (mains ++ [h3; h4])) m with Ok (Some n) => same_node top n | _ => false end). split; [|destruct C as [[-> ->]|[-> ->]]; reflexivity].
    intros m. unfold directly_below, hangs. destruct (upstream (register_all (mains ++ [h3; h4])) m) as [[n|]|e].
    + rewrite WiringProofs.same_node_eq. split; [intros E; exists n; auto|]. intros (n' & E & X). injection E as <-. exact X.
    + split; [discriminate|]. intros (n & E & _). discriminate E.
    + split; [discriminate|]. intros (n & E & _). discriminate E.
  - intros x y Hx Hy. assert (A : forall z, In z (mains ++ [h3; h4]) -> i_building (w_id z) = 1%nat); [|rewrite (A x Hx), (A y Hy); reflexivity]. destruct C as [[-> _]|[-> _]]; intros z Hz; cbn in Hz; repeat destruct Hz as [<-|Hz]; try destruct Hz; reflexivity.
Qed.

Example C106_example_one : mains_correlation (fun _ => 0%Z) hdata (register_all [h1; h3; h4]) [h1; h3; h4] = Ok (CVal (1 * sqrt ((INR 2 - 1) * (1 / 2) / (INR 2 * 2)))) /\
  0 < deviation (map (total hpower [h3]) (seq 0 2)) /\ pearson (pairs hpower [h1] [h3] 2) 1.
Proof.
  destruct (hwired [h1] (WMeter h1) (or_introl (conj eq_refl eq_refl))) as (W & CM & CS & B). cbn [List.app] in W, CM, CS, B.
  assert (T : forall m i, (m = h1 \/ m = h3) -> total hpower [m] i = INR i).
  { intros m i [->| ->]; unfold total, hpower; cbn [map rsum fold_right w_id h1 h3 hx i_instance]; unfold Q2R, inject_Z; cbn [Qnum Qden]; rewrite <- INR_IZR_INZ; lra. }
  assert (PW : pairs hpower [h1] [h3] 2 = [(0, 0); (1, 1)]). { unfold pairs. cbn [seq map]. rewrite !T by auto. cbn [INR]. reflexivity. }
  assert (PE : pearson (pairs hpower [h1] [h3] 2) 1).
  { apply self_pearson; rewrite PW; [repeat constructor|]. unfold deviation, mean, rsum. cbn. lra. }
  split; [|split].
  - rewrite (C106_one_partial (fun _ => 0%Z) hdata hpower 12 6 2 _ _ _ [h1] [h3] (hregular _) (le_n 2) B W CM CS h1 1 eq_refl PE). cbn [seq map]. rewrite !T by auto.
    replace (deviation [INR 0; INR 1]) with (1 / 2) by (unfold deviation, mean, rsum; cbn; lra). replace (deviation [INR 0; INR 1; INR 2]) with 2 by (unfold deviation, mean, rsum; cbn; lra). reflexivity.
  - cbn [seq map]. rewrite !T by auto. unfold deviation, mean, rsum. cbn. lra.
  - exact PE.
Qed.
Example C106_example_several : mains_correlation (fun _ => 0%Z) hdata (register_all [h1; h2; h3; h4]) [h1; h2; h3; h4] = Ok (CVal 1).
Proof.
  destruct (hwired [h1; h2] (WGroup [h1; h2]) (or_intror (conj eq_refl eq_refl))) as (W & CM & CS & B). cbn [List.app] in W, CM, CS, B.
  destruct (C106_several_partial (fun _ => 0%Z) hdata hpower 12 6 2 _ _ _ [h1; h2] [h3] (hregular _) (le_n 2) B W CM CS (le_n 2)) as (c & E & V & _). rewrite E. f_equal. apply V.
  assert (PW : pairs hpower [h1; h2] [h3] 2 = [(0, 0); (1, 1)]). { unfold pairs, total, hpower. cbn [seq map rsum fold_right w_id h1 h2 h3 hx i_instance]. unfold Q2R, inject_Z. cbn [Qnum Qden Z.of_nat Pos.of_succ_nat]. repeat apply f_equal2; try reflexivity; lra. }
  apply self_pearson; rewrite PW; [repeat constructor|]. unfold deviation, mean, rsum. cbn. lra.
Qed.
Example C106_example_errors : let reg := register_all [h1; h2; h3; h4] in let far := mkWmeter 5 (mkMid 5 2 7) true None None in
  mains_correlation (fun _ => 0%Z) hdata reg [h3; h4] = Err AttributeError /\
  mains_correlation (fun _ => 0%Z) hdata reg [h1; h2; h3; h4; far] = Err RuntimeError.
Proof. split; reflexivity. Qed.
