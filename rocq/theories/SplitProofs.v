From Verif Require Import Base SplitModel SplitSpec.
From Coq Require Import QArith Qround Lia Lqa.
Open Scope Q_scope.

Lemma int_of_nonneg x : 0 <= x -> int_of x = Qfloor x.
Proof. intros H. unfold int_of. apply Qle_bool_iff in H. rewrite H. reflexivity. Qed.
Lemma inject_plus a b : inject_Z (a + b) == inject_Z a + inject_Z b.
Proof. rewrite inject_Z_plus. reflexivity. Qed.

Lemma records_spec p s : 0 < p -> (fst s <= snd s)%Z -> (0 <= records p s)%Z /\ whole_records p s (records p s).
Proof.
  intros HP HS. unfold records, whole_records. set (d := inject_Z (snd s - fst s)).
  assert (D : 0 <= d). { unfold d. change 0 with (inject_Z 0). rewrite <- Zle_Qle. lia. }
  assert (DP : 0 <= d / p). { apply Qle_shift_div_l; [exact HP|]. rewrite Qmult_0_l. exact D. }
  rewrite int_of_nonneg by exact DP. split.
  - change 0%Z with (Qfloor 0). apply Qfloor_resp_le. exact DP.
  - split.
    + assert (F := Qfloor_le (d / p)). setoid_replace d with ((d / p) * p) at 2 by (field; lra). apply Qmult_le_compat_r; [exact F|lra].
    + assert (F := Qlt_floor (d / p)). rewrite inject_plus in F. setoid_replace d with ((d / p) * p) at 1 by (field; lra). apply Qmult_lt_compat_r; [exact HP|]. exact F.
Qed.

Lemma total_app a b : total (a ++ b) = (total a + total b)%Z.
Proof. unfold total. induction a as [|x a IH]; cbn; [reflexivity|]. rewrite IH. lia. Qed.
Lemma total_nonneg ns : Forall (fun n => (0 <= n)%Z) ns -> (0 <= total ns)%Z.
Proof. induction 1; cbn; [lia|]. fold (total l). lia. Qed.

(** Where the loop stops: strictly inside a section, or at the start of one. *)
Definition stops (p : Q) (sections : list section) (j : nat) (t x : Q) : Prop :=
  exists s, nth_error sections j = Some s /\ inject_Z (fst s) <= t /\ t <= inject_Z (snd s) /\
    x == inject_Z (total (firstn j (map (records p) sections))) + (t - inject_Z (fst s)) / p /\
    (t < inject_Z (fst s) + inject_Z (records p s) * p \/ t == inject_Z (fst s)).

Lemma nth_middle (A : Type) (pre : list A) x rest : nth_error (pre ++ x :: rest) (length pre) = Some x.
Proof. rewrite nth_error_app2 by lia. rewrite Nat.sub_diag. reflexivity. Qed.

Lemma for_loop_thm p : 0 < p -> forall rest pre r, valid (pre ++ rest) -> 0 < r -> r < inject_Z (total (map (records p) rest)) ->
  exists j t, for_loop (pre ++ rest) p (length pre) (map (records p) rest) r = Split t /\ stops p (pre ++ rest) j t (inject_Z (total (map (records p) pre)) + r).
Proof.
  intros HP. induction rest as [|s rest IH]; intros pre r HV H0 HR.
  - exfalso. change (inject_Z (total (map (records p) []))) with 0 in HR. lra.
  - cbn [map for_loop]. change (total (map (records p) (s :: rest))) with (records p s + total (map (records p) rest))%Z in HR. rewrite inject_plus in HR.
    assert (VS : (fst s <= snd s)%Z). { unfold valid in HV. rewrite Forall_forall in HV. apply HV. rewrite in_app_iff. right. left. reflexivity. }
    destruct (records_spec p s HP VS) as [N0 [W1 W2]].
    destruct (Qcompare_spec r (inject_Z (records p s))) as [E|L|G].
    + (* equal: the next section *)
      assert (X : nth_error (pre ++ s :: rest) (S (length pre)) = nth_error rest 0). { rewrite nth_error_app2 by lia. replace (S (length pre) - length pre)%nat with 1%nat by lia. reflexivity. }
      destruct rest as [|s' rest'].
      { exfalso. change (inject_Z (total (map (records p) []))) with 0 in HR. lra. }
      rewrite X. cbn [nth_error]. exists (S (length pre)), (inject_Z (fst s')). split; [reflexivity|]. exists s'. split; [rewrite X; reflexivity|]. split; [lra|].
      assert (VS' : (fst s' <= snd s')%Z). { unfold valid in HV. rewrite Forall_forall in HV. apply HV. rewrite in_app_iff. right. right. left. reflexivity. }
      split; [rewrite <- Zle_Qle; exact VS'|]. split; [|right; reflexivity].
      rewrite map_app. cbn [map]. replace (firstn (S (length pre)) (map (records p) pre ++ records p s :: records p s' :: map (records p) rest')) with (map (records p) pre ++ [records p s]).
      2:{ rewrite firstn_app, map_length. rewrite (firstn_all2 (map (records p) pre)) by (rewrite map_length; lia). replace (S (length pre) - length pre)%nat with 1%nat by lia. reflexivity. }
      rewrite total_app, inject_plus. change (total [records p s]) with (records p s + 0)%Z. rewrite Z.add_0_r, E. unfold Qminus. rewrite Qplus_opp_r. unfold Qdiv. rewrite Qmult_0_l. ring.
    + (* inside this section *)
      rewrite nth_middle. exists (length pre), (inject_Z (fst s) + p * r). split; [reflexivity|]. exists s. split; [apply nth_middle|].
      assert (PR : 0 < p * r) by (rewrite <- (Qmult_0_r p); apply Qmult_lt_l; assumption).
      assert (PR2 : p * r < inject_Z (records p s) * p). { rewrite (Qmult_comm p r). apply Qmult_lt_compat_r; assumption. }
      assert (SUB : inject_Z (snd s - fst s) == inject_Z (snd s) - inject_Z (fst s)). { unfold Zminus. rewrite inject_plus, inject_Z_opp. reflexivity. }
      split; [lra|]. split; [lra|]. split; [|left; lra].
      rewrite map_app. rewrite firstn_app, map_length, Nat.sub_diag, firstn_O, app_nil_r. rewrite firstn_all2 by (rewrite map_length; lia).
      setoid_replace ((inject_Z (fst s) + p * r - inject_Z (fst s)) / p) with r by (field; lra). reflexivity.
    + (* go on *)
      replace (pre ++ s :: rest) with ((pre ++ [s]) ++ rest) in * by (rewrite <- app_assoc; reflexivity).
      destruct (IH (pre ++ [s]) (r - inject_Z (records p s)) HV) as (j & t & E & (s' & A & B & C & D & F)); [lra|lra|].
      exists j, t. split; [rewrite <- E; f_equal; rewrite app_length; cbn; lia|]. exists s'. repeat split; try assumption.
      rewrite <- D. rewrite map_app, total_app, inject_plus. change (total (map (records p) [s])) with (records p s + 0)%Z. rewrite Z.add_0_r. ring.
Qed.

Lemma while_thm fuel p sections r : 0 < p -> valid sections -> 0 <= r -> r < inject_Z (total (map (records p) sections)) \/ r == 0 ->
  (r == 0 -> while_loop (S fuel) sections p (map (records p) sections) r = Ok None) /\
  (0 < r -> exists j t, while_loop (S fuel) sections p (map (records p) sections) r = Ok (Some t) /\ stops p sections j t r).
Proof.
  intros HP HV H0 HR. split.
  - intros E. cbn. rewrite (proj2 (Qeq_bool_iff r 0) E). reflexivity.
  - intros G. destruct HR as [HR|HR]; [|lra]. destruct (for_loop_thm p HP sections [] r HV G HR) as (j & t & E & S). exists j, t. cbn [while_loop].
    destruct (Qeq_bool r 0) eqn:Z; [apply Qeq_bool_iff in Z; lra|]. cbn [app length] in E. rewrite E. split; [reflexivity|].
    destruct S as (s & A & B & C & D & F). exists s. repeat split; try assumption. rewrite <- D. change (total (map (records p) [])) with 0%Z. ring.
Qed.

Lemma fraction_ok f : 0 < f -> f < 1 -> negb (Qle_bool f 0) && negb (Qle_bool 1 f) = true.
Proof.
  intros H H'. apply andb_true_iff. split; apply negb_true_iff; [destruct (Qle_bool f 0) eqn:E|destruct (Qle_bool 1 f) eqn:E]; try reflexivity; apply Qle_bool_iff in E; lra.
Qed.
Lemma nonneg_records p sections : 0 < p -> valid sections -> Forall (fun n => (0 <= n)%Z) (map (records p) sections).
Proof. intros HP HV. rewrite Forall_map. eapply Forall_impl; [|exact HV]. intros s Hs. apply (records_spec p s HP Hs). Qed.

Lemma split_many fuel p sections f : 0 < p -> valid sections -> 0 < f -> f < 1 -> length sections <> 1%nat ->
  (total (map (records p) sections) = 0%Z -> train_test_split (S fuel) (Some (sections, p)) f = Ok None) /\
  ((0 < total (map (records p) sections))%Z -> exists j t, train_test_split (S fuel) (Some (sections, p)) f = Ok (Some t) /\ stops p sections j t (inject_Z (total (map (records p) sections)) * f)).
Proof.
  intros HP HV F0 F1 HL. unfold train_test_split. rewrite fraction_ok by assumption.
  destruct (Qeq_bool p 0) eqn:PZ; [apply Qeq_bool_iff in PZ; lra|].
  set (T := total (map (records p) sections)). assert (T0 : (0 <= T)%Z) by (apply total_nonneg, nonneg_records; assumption).
  assert (TQ : 0 <= inject_Z T) by (change 0 with (inject_Z 0); rewrite <- Zle_Qle; exact T0).
  assert (SAME : forall x, match sections with [s] => x s | _ => while_loop (S fuel) sections p (map (records p) sections) (inject_Z T * f) end = while_loop (S fuel) sections p (map (records p) sections) (inject_Z T * f)) by (intros x; destruct sections as [|a [|b r]]; [reflexivity|cbn in HL; congruence|reflexivity]).
  rewrite SAME.
  assert (R0 : 0 <= inject_Z T * f) by (apply Qmult_le_0_compat; [exact TQ|lra]).
  assert (R1 : inject_Z T * f < inject_Z T \/ inject_Z T * f == 0).
  { destruct (Z.eq_dec T 0) as [->|N]; [right; ring|]. left. assert (P : 0 < inject_Z T) by (change 0 with (inject_Z 0); rewrite <- Zlt_Qlt; lia). setoid_replace (inject_Z T) with (inject_Z T * 1) at 2 by ring. apply Qmult_lt_l; [exact P|exact F1]. }
  destruct (while_thm fuel p sections (inject_Z T * f) HP HV R0 R1) as [W1 W2]. split.
  - intros E. apply W1. rewrite E. ring.
  - intros E. apply W2. assert (P : 0 < inject_Z T) by (change 0 with (inject_Z 0); rewrite <- Zlt_Qlt; lia). rewrite <- (Qmult_0_r (inject_Z T)). apply Qmult_lt_l; assumption.
Qed.

(** One section. *)
Lemma split_one fuel p s f : 0 < p -> (fst s <= snd s)%Z -> 0 < f -> f < 1 -> exists t, train_test_split fuel (Some ([s], p)) f = Ok (Some t) /\
  inject_Z (fst s) <= t /\ t <= inject_Z (snd s) /\ t == inject_Z (fst s) + inject_Z (Qfloor (inject_Z (records p s) * f * p)).
Proof.
  intros HP HS F0 F1. unfold train_test_split. rewrite fraction_ok by assumption. destruct (Qeq_bool p 0) eqn:PZ; [apply Qeq_bool_iff in PZ; lra|].
  cbn [map]. change (total [records p s]) with (records p s + 0)%Z. rewrite Z.add_0_r. destruct (records_spec p s HP HS) as [N0 [W1 W2]].
  assert (NQ : 0 <= inject_Z (records p s)) by (change 0 with (inject_Z 0); rewrite <- Zle_Qle; exact N0).
  assert (X0 : 0 <= inject_Z (records p s) * f * p) by (apply Qmult_le_0_compat; [apply Qmult_le_0_compat|]; lra).
  rewrite int_of_nonneg by exact X0. eexists. split; [reflexivity|].
  assert (FL := Qfloor_le (inject_Z (records p s) * f * p)). assert (FL0 : (0 <= Qfloor (inject_Z (records p s) * f * p))%Z) by (change 0%Z with (Qfloor 0); apply Qfloor_resp_le; exact X0).
  assert (FQ : 0 <= inject_Z (Qfloor (inject_Z (records p s) * f * p))) by (change 0 with (inject_Z 0); rewrite <- Zle_Qle; exact FL0).
  assert (UP : inject_Z (records p s) * f * p <= inject_Z (records p s) * p). { apply Qmult_le_compat_r; [|lra]. setoid_replace (inject_Z (records p s)) with (inject_Z (records p s) * 1) at 2 by ring. rewrite (Qmult_comm _ f), (Qmult_comm _ 1). apply Qmult_le_compat_r; [lra|exact NQ]. }
  assert (SUB : inject_Z (snd s - fst s) == inject_Z (snd s) - inject_Z (fst s)). { unfold Zminus. rewrite inject_plus, inject_Z_opp. reflexivity. }
  split; [lra|]. split; [lra|reflexivity].
Qed.

(** A larger fraction never gives an earlier split. *)
Lemma order_nth sections : in_order sections -> forall i j s s', (i < j)%nat -> nth_error sections i = Some s -> nth_error sections j = Some s' -> (snd s <= fst s')%Z.
Proof.
  induction sections as [|a l IH]; intros HO i j s s' L Hi Hj; [destruct i; discriminate|]. destruct HO as [H1 H2]. destruct j; [lia|]. cbn in Hj. destruct i.
  - cbn in Hi. injection Hi as <-. apply H1. eapply nth_error_In. exact Hj.
  - cbn in Hi. eapply IH; [exact H2| |exact Hi|exact Hj]. lia.
Qed.
Lemma total_firstn_mono ns : Forall (fun n => (0 <= n)%Z) ns -> forall i j, (i <= j)%nat -> (total (firstn i ns) <= total (firstn j ns))%Z.
Proof.
  induction 1 as [|n ns H HF IH]; intros i j L; [rewrite !firstn_nil; lia|]. destruct i, j; cbn; try lia.
  - fold (total (firstn j ns)). assert (X := IH 0%nat j (Nat.le_0_l _)). cbn in X. lia.
  - fold (total (firstn i ns)). fold (total (firstn j ns)). specialize (IH i j ltac:(lia)). lia.
Qed.
Lemma total_firstn_S ns i n : nth_error ns i = Some n -> total (firstn (S i) ns) = (total (firstn i ns) + n)%Z.
Proof. revert i. induction ns as [|m ns IH]; intros [|i] H; try discriminate; [cbn in H; injection H as <-; cbn; lia|]. cbn in H. specialize (IH i H). cbn [firstn] in *. unfold total in *. cbn [fold_right]. lia. Qed.

Lemma stops_mono p sections i j t t' x x' : 0 < p -> valid sections -> in_order sections -> stops p sections i t x -> stops p sections j t' x' -> x < x' -> t <= t'.
Proof.
  intros HP HV HO (s & A & B & C & D & F) (s' & A' & B' & C' & D' & F') HX.
  destruct (Nat.lt_trichotomy i j) as [L|[->|L]].
  - assert (O := order_nth sections HO i j s s' L A A'). assert (O' : inject_Z (snd s) <= inject_Z (fst s')) by (rewrite <- Zle_Qle; exact O). lra.
  - assert (s = s') by congruence. subst s'.
    assert (Y : (t - inject_Z (fst s)) / p < (t' - inject_Z (fst s)) / p) by lra. apply (Qmult_lt_compat_r _ _ p HP) in Y.
    setoid_replace ((t - inject_Z (fst s)) / p * p) with (t - inject_Z (fst s)) in Y by (field; lra). setoid_replace ((t' - inject_Z (fst s)) / p * p) with (t' - inject_Z (fst s)) in Y by (field; lra). lra.
  - exfalso. assert (NN := nonneg_records p sections HP HV). set (ns := map (records p) sections) in *.
    assert (M : (total (firstn (S j) ns) <= total (firstn i ns))%Z) by (apply total_firstn_mono; [exact NN|lia]).
    rewrite (total_firstn_S ns j (records p s')) in M by (unfold ns; rewrite nth_error_map, A'; reflexivity).
    assert (MQ : inject_Z (total (firstn j ns)) + inject_Z (records p s') <= inject_Z (total (firstn i ns))) by (rewrite <- inject_plus, <- Zle_Qle; exact M).
    assert (P1 : 0 <= (t - inject_Z (fst s)) / p) by (apply Qle_shift_div_l; [exact HP|lra]).
    assert (N0 : 0 <= inject_Z (records p s')). { change 0 with (inject_Z 0). rewrite <- Zle_Qle. unfold valid in HV. rewrite Forall_forall in HV. apply records_spec; [exact HP|]. apply HV. eapply nth_error_In. exact A'. }
    destruct F' as [F'|F'].
    + assert (P2 : (t' - inject_Z (fst s')) / p < inject_Z (records p s')) by (apply Qlt_shift_div_r; [exact HP|lra]). lra.
    + assert (P2 : (t' - inject_Z (fst s')) / p == 0) by (rewrite F'; field; lra). lra.
Qed.
