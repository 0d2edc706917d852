(** C36: train_test_split. *)
From Verif Require Import Base SplitModel SplitSpec SplitProofs.
From Coq Require Import QArith Qround Lia Lqa.
Open Scope Q_scope.

Definition ex_sections : list section := [(0, 100); (200, 220); (300, 301); (400, 500)]%Z.

(** Several sections: the split point lies in one of them, and the records before it are exactly
    the requested fraction of all records; the unbounded loop ends in its first round. *)
Theorem C36_split : forall (fuel : nat) (period f : Q) (sections : list section), 0 < period -> valid sections -> 0 < f -> f < 1 -> length sections <> 1%nat ->
  forall ns, Forall2 (whole_records period) sections ns -> (0 < total ns)%Z ->
  exists i t, train_test_split (S fuel) (Some (sections, period)) f = Ok (Some t) /\ splits_at period sections ns i t (inject_Z (total ns) * f).
Proof.
  intros fuel p f sections HP HV F0 F1 HL ns HN HT. assert (E : ns = map (records p) sections).
  { clear HL HT. induction HN as [|s n sections ns HW _ IH]; [reflexivity|]. inversion_clear HV as [|a b Hs Hr]. cbn. rewrite (IH Hr). f_equal. destruct (records_spec p s HP Hs) as [_ W].
    destruct HW as [A B], W as [A' B'].
    assert (L1 : (n < records p s + 1)%Z). { rewrite Zlt_Qlt, inject_plus. apply Qmult_lt_r with (z := p); [exact HP|]. change (inject_Z 1) with 1. lra. }
    assert (L2 : (records p s < n + 1)%Z). { rewrite Zlt_Qlt, inject_plus. apply Qmult_lt_r with (z := p); [exact HP|]. change (inject_Z 1) with 1. lra. }
    lia. }
  subst ns. destruct (split_many fuel p sections f HP HV F0 F1 HL) as [_ H]. destruct (H HT) as (j & t & R & (s & A & B & C & D & _)). exists j, t. split; [exact R|]. exists s. auto.
Qed.
Print Assumptions C36_split.
Definition ex_records : list Z := [50; 10; 0; 50]%Z.
Example C36_split_example : valid ex_sections /\ Forall2 (whole_records 2) ex_sections ex_records /\ (0 < total ex_records)%Z /\
  (exists t, train_test_split 1 (Some (ex_sections, 2)) (1 # 2) = Ok (Some t) /\ t == 210) /\
  train_test_split 1 (Some (ex_sections, 2)) (6 # 11) = Ok (Some 300) /\ train_test_split 1 (Some (ex_sections, 2)) (5 # 11) = Ok (Some 200).
Proof.
  split; [repeat constructor; cbn; lia|]. split; [repeat (apply Forall2_cons || apply Forall2_nil); split; first [reflexivity|discriminate]|]. split; [reflexivity|]. split; [eexists; split; [reflexivity|reflexivity]|]. split; reflexivity.
Qed.

(** One section: the same, rounded down to a whole second. *)
Theorem C36_one_section : forall (fuel : nat) (period f : Q) (s : section) (n : Z), 0 < period -> (fst s <= snd s)%Z -> 0 < f -> f < 1 -> whole_records period s n ->
  exists t, train_test_split fuel (Some ([s], period)) f = Ok (Some t) /\ inject_Z (fst s) <= t /\ t <= inject_Z (snd s) /\
    (t - inject_Z (fst s)) <= inject_Z n * f * period /\ inject_Z n * f * period < (t - inject_Z (fst s)) + 1.
Proof.
  intros fuel p f s n HP HS F0 F1 [A B]. destruct (split_one fuel p s f HP HS F0 F1) as (t & E & T1 & T2 & T3). exists t. split; [exact E|]. split; [exact T1|]. split; [exact T2|].
  destruct (records_spec p s HP HS) as [_ [A' B']].
  assert (L1 : (n < records p s + 1)%Z). { rewrite Zlt_Qlt, inject_plus. apply Qmult_lt_r with (z := p); [exact HP|]. change (inject_Z 1) with 1. lra. }
  assert (L2 : (records p s < n + 1)%Z). { rewrite Zlt_Qlt, inject_plus. apply Qmult_lt_r with (z := p); [exact HP|]. change (inject_Z 1) with 1. lra. }
  assert (EN : records p s = n) by lia. rewrite EN in T3. assert (FL := Qfloor_le (inject_Z n * f * p)). assert (FU := Qlt_floor (inject_Z n * f * p)). rewrite inject_plus in FU. change (inject_Z 1) with 1 in FU. split; lra.
Qed.
Print Assumptions C36_one_section.
Example C36_one_section_example : whole_records 6 (0, 100)%Z 16 /\ exists t, train_test_split 0 (Some ([(0, 100)%Z], 6)) (1 # 3) = Ok (Some t) /\ t == 32.
Proof. split; [split; first [reflexivity|discriminate]|]. eexists. split; reflexivity. Qed.

(** A larger fraction never gives an earlier split point. *)
Theorem C36_monotone : forall (fuel : nat) (period f f' : Q) (sections : list section) (t t' : Q), 0 < period -> valid sections -> in_order sections -> 0 < f -> f < f' -> f' < 1 ->
  train_test_split (S fuel) (Some (sections, period)) f = Ok (Some t) -> train_test_split (S fuel) (Some (sections, period)) f' = Ok (Some t') -> t <= t'.
Proof.
  intros fuel p f f' sections t t' HP HV HO F0 FF F1 E E'. destruct (Nat.eq_dec (length sections) 1) as [L|L].
  - destruct sections as [|s [|s' r]]; try discriminate. inversion_clear HV as [|a b Hs Hr].
    destruct (split_one (S fuel) p s f HP Hs F0 ltac:(lra)) as (u & U & _ & _ & EU). destruct (split_one (S fuel) p s f' HP Hs ltac:(lra) F1) as (v & V & _ & _ & EV).
    assert (XU := eq_trans (eq_sym E) U). injection XU as <-. assert (XV := eq_trans (eq_sym E') V). injection XV as <-. rewrite EU, EV. apply Qplus_le_compat; [lra|]. rewrite <- Zle_Qle. apply Qfloor_resp_le.
    destruct (records_spec p s HP Hs) as [N0 _]. assert (NQ : 0 <= inject_Z (records p s)) by (change 0 with (inject_Z 0); rewrite <- Zle_Qle; exact N0).
    apply Qmult_le_compat_r; [|lra]. rewrite (Qmult_comm _ f), (Qmult_comm _ f'). apply Qmult_le_compat_r; lra.
  - destruct (split_many fuel p sections f HP HV F0 ltac:(lra) L) as [Z1 P1]. destruct (split_many fuel p sections f' HP HV ltac:(lra) F1 L) as [Z2 P2].
    assert (T0 : (0 <= total (map (records p) sections))%Z) by (apply total_nonneg, nonneg_records; assumption).
    destruct (Z.eq_dec (total (map (records p) sections)) 0) as [Z|NZ]; [rewrite (Z1 Z) in E; discriminate|]. assert (T1 : (0 < total (map (records p) sections))%Z) by lia.
    destruct (P1 T1) as (i & u & U & SU). destruct (P2 T1) as (j & v & V & SV). assert (XU := eq_trans (eq_sym E) U). injection XU as <-. assert (XV := eq_trans (eq_sym E') V). injection XV as <-.
    eapply stops_mono; [exact HP|exact HV|exact HO|exact SU|exact SV|]. apply Qmult_lt_l; [|exact FF]. change 0 with (inject_Z 0). rewrite <- Zlt_Qlt. exact T1.
Qed.
Print Assumptions C36_monotone.
Example C36_monotone_example : in_order ex_sections.
Proof. cbn. repeat split; intros s'; intuition subst; cbn; lia. Qed.

(** The other outcomes: a fraction outside (0, 1), no mains. *)
Theorem C36_refuses : forall (fuel : nat) (mains : option (list section * Q)) (f : Q),
  (f <= 0 \/ 1 <= f <-> train_test_split fuel mains f = Err AssertionError) /\ (0 < f -> f < 1 -> train_test_split fuel None f = Err AttributeError).
Proof.
  intros fuel mains f. split.
  - split.
    + intros H. unfold train_test_split. destruct (Qle_bool f 0) eqn:A; [reflexivity|]. destruct (Qle_bool 1 f) eqn:B; [reflexivity|]. exfalso. destruct H as [H|H]; apply Qle_bool_iff in H; congruence.
    + intros H. destruct (Qlt_le_dec 0 f) as [A|A]; [|left; exact A]. destruct (Qlt_le_dec f 1) as [B|B]; [|right; exact B]. exfalso. unfold train_test_split in H. rewrite fraction_ok in H by assumption.
      destruct mains as [[sections p]|]; [|discriminate]. destruct (Qeq_bool p 0); [destruct sections; discriminate|]. 
      assert (W : forall fuel all p ns r, while_loop fuel all p ns r <> Err AssertionError).
      { clear. induction fuel as [|fuel IH]; intros all p ns r; cbn; destruct (Qeq_bool r 0); try discriminate. destruct (for_loop all p 0 ns r) as [r'|t|e] eqn:E; [apply IH|discriminate|].
        assert (G : forall ns i r e, for_loop all p i ns r = Raise e -> e = IndexError). { clear. induction ns as [|n ns IH]; intros i r e; cbn; [discriminate|]. destruct (r ?= inject_Z n); [destruct (match all with [] => None | _ :: l => nth_error l i end)|destruct (nth_error all i)|apply IH]; congruence. }
        apply G in E. congruence. }
      destruct sections as [|s [|s' r]]; try discriminate H; apply (W _ _ _ _ _ H).
  - intros A B. unfold train_test_split. rewrite fraction_ok by assumption. reflexivity.
Qed.
Print Assumptions C36_refuses.

(** Several sections that are all shorter than the sample period, or no section at
    all: no split point is returned, only None. *)
Theorem C36_none_refuted : exists (period f : Q) (sections : list section), 0 < period /\ valid sections /\ in_order sections /\ 0 < f /\ f < 1 /\ sections <> [] /\
  forall fuel, train_test_split fuel (Some (sections, period)) f = Ok None.
Proof.
  exists 10, (1 # 2), [(0, 9); (20, 29)]%Z. split; [lra|]. split; [repeat constructor; cbn; lia|]. split; [cbn; repeat split; intros s'; intuition subst; cbn; lia|]. split; [lra|]. split; [lra|]. split; [discriminate|]. intros [|fuel]; reflexivity.
Qed.
Print Assumptions C36_none_refuted.
