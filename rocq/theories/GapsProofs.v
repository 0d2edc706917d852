(** Proofs about statistics of the good sections of a meter. *)
From Coq Require Import QArith Qminmax Permutation Sorted.
From Verif Require Import Base TimeFrameModel TimeFrameSpec TimeFrameProofs StoreModel StoreSpec StoreProofs StoreProofs2 ResultsModel ResultsSpec ResultsProofs
  GoodSectionsModel GoodSectionsSpec EnergyModel EnergySpec EnergyProofs LoadFrames EnergyProofs2 DropoutProofs GoodSectionsProofs GoodSectionsProofs2 GoodSectionsProofs3
  WholeModel WholeSpec WholeProofs GapsModel GapsSpec.
Import List. Open Scope Z_scope.

(** ** The frames of the runs *)

Inductive framed : list (list Z) -> list tf -> Prop :=
  | fd_nil : framed [] []
  | fd_one p f l : first_of p f -> last_of p l -> framed [p] [mkTF (Some f) (Some l) true false true]
  | fd_cons p f l ps us : ps <> [] -> first_of p f -> last_of p l -> framed ps us ->
      framed (p :: ps) (mkTF (Some f) (Some l) true false false :: us).

Lemma frame_exact r t : frame_of_run false false r t -> exists f l, first_of r f /\ last_of r l /\ t = mkTF (Some f) (Some l) true false false.
Proof.
  destruct t as [s e en em inc]. intros (H1 & H2 & H3 & (f & F & Ef) & (l & L & El)). cbn in *. subst. unfold tf_start, tf_end in *. cbn in *.
  exists f, l. split; [exact F|]. split; [exact L|]. congruence.
Qed.

Lemma frames_framed e ts us : last_closed e ts us -> forall rs, frames_of_runs false false rs ts -> Forall (fun r => r <> []) rs -> framed (long_runs rs) us.
Proof.
  intros HC. 
  assert (Hlong : forall rs ts, frames_of_runs false false rs ts -> Forall (fun r => r <> []) rs -> Forall2 (fun r t => frame_of_run false false r t) (long_runs rs) ts).
  { clear. intros rs ts H. remember false as o eqn:Eo. assert (Eo' : o = false) by exact Eo. rewrite Eo in H at 1. clear Eo. revert Eo'.
    induction H as [o|o r rs t ts Hl Hf Hrs IH|r rs ts Hl Hc Hrs IH]; intros Eo HN; subst.
    - constructor.
    - apply Forall_cons_iff in HN. destruct HN as [N1 N2]. assert (L : (2 <= length r)%nat) by (destruct Hl as [Hl|[Hl|[_ Hl]]]; [exact Hl|discriminate|discriminate]).
      unfold long_runs. cbn [filter]. rewrite (proj2 (Nat.leb_le 2 (length r)) L). constructor; [destruct rs; exact Hf|]. apply IH; [reflexivity|exact N2].
    - apply Forall_cons_iff in HN. destruct HN as [N1 N2]. unfold long_runs. cbn [filter]. rewrite Hl. cbn [Nat.leb]. apply IH; [reflexivity|exact N2]. }
  intros rs Hf HN. specialize (Hlong rs ts Hf HN). clear Hf HN. revert Hlong. generalize (long_runs rs) as ps. clear rs.
  induction HC as [|t u H1 H2 H3 H4 H5|t ts us Hne H IH]; intros ps HF.
  - inversion HF. constructor.
  - inversion HF as [|p t' ps' ts' P1 P2]; subst. inversion P2; subst. destruct (frame_exact _ _ P1) as (f & l & F & L & ->).
    destruct u as [s e' en em inc]. cbn in *. subst. unfold tf_start, tf_end in *. cbn in *. subst. constructor; assumption.
  - inversion HF as [|p t' ps' ts' P1 P2]; subst. destruct (frame_exact _ _ P1) as (f & l & F & L & ->). constructor; [|exact F|exact L|apply IH; exact P2].
    inversion P2; subst; [contradiction|discriminate].
Qed.

Lemma framed_nonempty ps us : framed ps us -> nonempty us = us.
Proof. induction 1 as [|p f l F L|p f l ps us N F L H IH]; [reflexivity|reflexivity|]. unfold nonempty in *. cbn. f_equal. exact IH. Qed.

(** ** Ascending frames *)

Fixpoint ascending (lo : Z) (l : list tf) : Prop :=
  match l with [] => True | t :: r => exists s e, bounded t s e /\ lo <= s /\ ascending e r end.

Lemma ascending_weaken l : forall lo lo', lo' <= lo -> ascending lo l -> ascending lo' l.
Proof. destruct l as [|t l]; intros lo lo' H; cbn; [auto|]. intros (s & e & B & Hs & A). exists s, e. split; [exact B|]. split; [lia|exact A]. Qed.

Lemma chain_ascending l : forall s e r, chain s l e -> ascending e r -> ascending s (l ++ r).
Proof.
  induction l as [|t l IH]; intros s e r H A; cbn in *; [subst; exact A|]. destruct H as (m & B & H). exists s, m. split; [exact B|]. split; [lia|]. exact (IH _ _ _ H A).
Qed.

Lemma ascending_usable l : forall lo, ascending lo l -> Forall usable l.
Proof.
  induction l as [|t l IH]; intros lo H; [constructor|]. destruct H as (s & e & (B1 & B2 & B3 & B4) & _ & A). constructor; [|exact (IH _ A)].
  split; [exact B3|]. intros x y Hx Hy. congruence.
Qed.

Lemma ascending_from l : forall lo t i, ascending lo l -> In t l -> inTF t i -> lo <= i.
Proof.
  induction l as [|u l IH]; intros lo t i H Hin Hi; [destruct Hin|]. destruct H as (s & e & B & Hs & A). pose proof B as (B1 & B2 & B3 & B4).
  destruct Hin as [->|Hin]; [|specialize (IH _ _ _ A Hin Hi); lia]. destruct Hi as (_ & Hi & _). specialize (Hi _ B1). lia.
Qed.

Lemma ascending_no_overlap l : forall lo, ascending lo l -> no_overlap l.
Proof.
  induction l as [|u l IH]; intros lo H j k a b i Hj Hk Ha Hb; [destruct j; discriminate|].
  destruct H as (s & e & (B1 & B2 & B3 & B4) & Hs & A).
  destruct j as [|j], k as [|k]; cbn [nth_error] in *.
  - reflexivity.
  - exfalso. injection Hj as <-. apply nth_error_In in Hk. pose proof (ascending_from _ _ _ _ A Hk Hb). destruct Ha as (_ & _ & Ha). specialize (Ha _ B2). lia.
  - exfalso. injection Hk as <-. apply nth_error_In in Hj. pose proof (ascending_from _ _ _ _ A Hj Ha). destruct Hb as (_ & _ & Hb). specialize (Hb _ B2). lia.
  - f_equal. exact (IH _ A j k a b i Hj Hk Ha Hb).
Qed.

(** ** A section that is a run *)

Lemma filter_none {A} (f : A -> bool) l : Forall (fun x => f x = false) l -> filter f l = [].
Proof. induction 1 as [|x l H _ IH]; [reflexivity|]. cbn. rewrite H. exact IH. Qed.
Lemma filter_each {A} (f : A -> bool) l : Forall (fun x => f x = true) l -> filter f l = l.
Proof. induction 1 as [|x l H _ IH]; [reflexivity|]. cbn. rewrite H, IH. reflexivity. Qed.

Lemma run_section {A} (rows m pre p post : list (sample A)) window f l (b : bool) :
  increasing rows -> rows_within window rows m -> m = pre ++ p ++ post -> first_time p f -> last_time p l -> (2 <= length p)%nat ->
  let t := mkTF (Some f) (Some l) true false b in
  f < l /\ intersection window t = Ok t /\ rows_of_period t rows (if b then p else removelast p).
Proof.
  intros Hinc Hw Em Hf Hl L t.
  pose proof (is_filter_sorted _ _ _ Hw (proj1 (increasing_sorted rows) Hinc)) as HS. rewrite Em in HS. apply sorted_app in HS. destruct HS as (_ & HS & S1).
  apply sorted_app in HS. destruct HS as (HS & _ & S2).
  destruct Hf as (x & r & Ep & Ef). destruct Hl as (z & q & Ep2 & El).
  assert (Hr : Forall (fun y => f <= fst y <= l) p /\ Forall (fun y => fst y < l) q /\ f < l).
  { assert (K1 : Forall (fun y => fst y < l) q).
    { rewrite Ep2 in HS. apply sorted_app in HS. destruct HS as (_ & _ & K). rewrite Forall_forall. intros y Hy. specialize (K y z Hy (or_introl eq_refl)). unfold slt in K. lia. }
    assert (K2 : Forall (fun y => f <= fst y) p).
    { rewrite Ep in HS |- *. apply StronglySorted_inv in HS. destruct HS as [_ K]. constructor; [lia|]. eapply Forall_impl; [|exact K]. unfold slt. cbv beta. intros; lia. }
    split; [|split; [exact K1|]].
    - rewrite Forall_forall in *. intros y Hy. split; [apply K2; exact Hy|]. rewrite Ep2 in Hy. apply in_app_or in Hy. destruct Hy as [Hy|[<-|[]]]; [specialize (K1 _ Hy); lia|lia].
    - destruct q as [|y q]; [rewrite Ep2 in L; cbn in L; lia|]. rewrite Ep2 in Ep. injection Ep as -> _. apply Forall_inv in K1. lia. }
  destruct Hr as (R1 & R2 & R3). split; [exact R3|].
  assert (Hx : within window f /\ within window l).
  { split; [rewrite <- Ef|rewrite <- El]; apply (is_filter_in _ _ _ _ Hw); rewrite Em; apply in_or_app; right; apply in_or_app; left.
    - rewrite Ep. left. reflexivity.
    - rewrite Ep2. apply in_or_app. right. left. reflexivity. }
  destruct Hx as [(W0 & W1 & W2) (_ & V1 & V2)]. split.
  - assert (Es2 : isect_start window t = Some f).
    { unfold isect_start. change (tf_start t) with (Some f). destruct (tf_start window) as [a|]; [specialize (W1 _ eq_refl); f_equal; lia|reflexivity]. }
    assert (Ee2 : isect_end window t = Some l).
    { unfold isect_end. change (tf_end t) with (Some l). destruct (tf_end window) as [a|]; [specialize (V2 _ eq_refl); f_equal; lia|reflexivity]. }
    destruct (intersection_cases window t) as [(Em2 & _)|[(_ & (s2 & e2 & A1 & A2 & A3) & _)|(_ & _ & E2)]].
    + cbn in Em2. rewrite W0 in Em2. discriminate.
    + rewrite Es2 in A1. rewrite Ee2 in A2. injection A1 as <-. injection A2 as <-. lia.
    + rewrite E2, Es2, Ee2. unfold isect_incl. rewrite Ee2. change (tf_end t) with (Some l). cbn. rewrite Z.eqb_refl. reflexivity.
  - set (g := fun y : sample A => (f <=? fst y) && (if b then fst y <=? l else fst y <? l)).
    assert (Eg : filter g m = if b then p else removelast p).
    { rewrite Em, !filter_app. rewrite (filter_none g pre), (filter_none g post).
      - cbn [List.app]. rewrite app_nil_r. destruct b.
        + apply filter_each. eapply Forall_impl; [|exact R1]. cbv beta. intros y Hy. unfold g. lia.
        + rewrite Ep2 at 1. rewrite filter_app. cbn [filter]. replace (g z) with false by (unfold g; lia). rewrite app_nil_r.
          rewrite filter_each; [rewrite Ep2; symmetry; apply removelast_last|]. rewrite Forall_forall in *. intros y Hy. unfold g. specialize (R2 _ Hy).
          assert (In y p) by (rewrite Ep2; apply in_or_app; left; exact Hy). specialize (R1 _ H). lia.
      - rewrite Forall_forall. intros y Hy. specialize (S2 z y). unfold slt in S2. unfold g.
        assert (fst z < fst y) by (apply S2; [rewrite Ep2; apply in_or_app; right; left; reflexivity|exact Hy]). destruct b; lia.
      - rewrite Forall_forall. intros y Hy. specialize (S1 y x Hy). unfold slt in S1. unfold g.
        assert (fst y < fst x) by (apply S1; rewrite Ep; left; reflexivity). lia. }
    rewrite <- Eg. apply (filter_refine (fun r0 => within window (fst r0))); [|exact Hw]. intros y. unfold inTFc.
    change (tf_empty t) with false. change (tf_start t) with (Some f). change (tf_end t) with (Some l). change (tf_incl t) with b. split.
    + intros (_ & K1 & K2). specialize (K1 _ eq_refl). specialize (K2 _ eq_refl).
      assert (G : g y = true) by (unfold g; destruct b; lia). split; [|exact G]. split; [exact W0|]. split.
      * intros s' Es. specialize (W1 _ Es). lia.
      * intros e' Ee. specialize (V2 _ Ee). lia.
    + intros [_ G]. unfold g in G. split; [reflexivity|]. split; [intros s' [= <-]; lia|]. intros e' [= <-]. destruct b; [|lia].
      assert (fst y < l \/ fst y = l) by lia. destruct H; auto.
Qed.

(** What a store delivers for a run. *)
Definition run_served {A} (c : nat) (p : list (sample A)) (cs : list (chunk A)) : Prop :=
  (length p = 1%nat -> cs = []) /\ ((2 <= length p)%nat -> delivers cs p c).

Lemma map_fst_first {A} (p : list (sample A)) f : first_of (map fst p) f -> first_time p f.
Proof. intros (r & E). destruct p as [|x p]; [discriminate|]. injection E as <- _. exists x, p. split; reflexivity. Qed.
Lemma map_fst_last {A} (p : list (sample A)) l : last_of (map fst p) l -> last_time p l.
Proof.
  intros (r & E). destruct p as [|z p] using rev_ind; [destruct r; discriminate|]. rewrite map_app in E. apply app_inj_tail in E. destruct E as [_ <-].
  exists z, p. split; reflexivity.
Qed.

Lemma runs_load {A} (rows m : list (sample A)) window n c : increasing rows -> rows_within window rows m -> (1 <= c)%nat ->
  forall us ps, framed (map (map fst) ps) us -> Forall (fun p => (2 <= length p)%nat) ps ->
  forall pre rest lo, m = pre ++ rest -> (forall x, In x rest -> lo <= fst x) ->
   (exists mss, rest = concat mss /\ ps = long_runs mss /\ Forall (fun p => p <> []) mss) ->
  exists css, hdf_load rows window us n c = (concat css, None) /\ Forall2 (run_served c) (cut_runs ps) css /\
    ascending lo (map c_tf (concat css)) /\
    ((length rows <= c)%nat -> Forall (fun cs => (length cs <= 1)%nat) css).
Proof.
  intros Hinc Hw Hc us ps H. remember (map (map fst) ps) as tps eqn:Etps. revert ps Etps.
  pose proof (is_filter_sorted _ _ _ Hw (proj1 (increasing_sorted rows) Hinc)) as HS.
  (* one run *)
  assert (One : forall mss pre rest p ps lo, m = pre ++ rest -> (forall x, In x rest -> lo <= fst x) -> rest = concat mss -> p :: ps = long_runs mss ->
     Forall (fun p => p <> []) mss ->
     exists pre2 rest2 mss2, m = pre2 ++ p ++ rest2 /\ rest2 = concat mss2 /\ ps = long_runs mss2 /\ Forall (fun p => p <> []) mss2 /\ (forall f, first_time p f -> lo <= f)).
  { clear. induction mss as [|q mss IH]; intros pre rest p ps lo Em Hlo -> Ep HN; [discriminate|]. apply Forall_cons_iff in HN. destruct HN as [N1 N2].
    unfold long_runs in Ep. cbn [filter] in Ep. destruct (Nat.leb 2 (length q)) eqn:E.
    - injection Ep as -> ->. exists pre, (concat mss), mss. cbn [concat] in Em. split; [exact Em|]. split; [reflexivity|]. split; [reflexivity|]. split; [exact N2|].
      intros f (x & r & -> & <-). apply Hlo. cbn [concat]. left. reflexivity.
    - cbn [concat] in Em. apply (IH (pre ++ q) (concat mss)); [rewrite <- app_assoc; exact Em| |reflexivity|exact Ep|exact N2].
      intros x Hx. apply Hlo. cbn [concat]. apply in_or_app. right. exact Hx. }
  assert (Sec : forall pre p rest2 f l (b : bool), m = pre ++ p ++ rest2 -> (2 <= length p)%nat -> first_of (map fst p) f -> last_of (map fst p) l ->
     exists cs, hdf_load_section rows window (mkTF (Some f) (Some l) true false b) n c = (cs, None) /\ run_served c (if b then p else removelast p) cs /\
       (forall r, ascending l r -> ascending f (map c_tf cs ++ r)) /\ ((length rows <= c)%nat -> (length cs <= 1)%nat) /\ (forall x, In x rest2 -> l <= fst x)).
  { intros pre p rest2 f l b Em L Hf Hl. apply map_fst_first in Hf. apply map_fst_last in Hl.
    destruct (run_section rows m pre p rest2 window f l b Hinc Hw Em Hf Hl L) as (Hfl & Ei & Hp).
    set (t := mkTF (Some f) (Some l) true false b) in *.
    assert (Ht1 : tf_empty t = false) by reflexivity.
    assert (Ht2 : tf_start t <> None \/ tf_end t <> None) by (left; discriminate).
    pose proof (section_bounded rows window t t (if b then p else removelast p) n c Hinc Hc Ei Ht1 Ht2 Hp) as (S0 & S1 & S2).
    assert (Hrest : forall x, In x rest2 -> l <= fst x).
    { intros x Hx. rewrite Em in HS. apply sorted_app in HS. destruct HS as (_ & K & _). apply sorted_app in K. destruct K as (_ & _ & K).
      destruct Hl as (z & q & E & <-). specialize (K z x). unfold slt in K. assert (fst z < fst x); [|lia]. apply K; [rewrite E; apply in_or_app; right; left; reflexivity|exact Hx]. }
    assert (Hone : forall cs, hdf_load_section rows window t n c = (cs, None) -> (length rows <= c)%nat -> (length cs <= 1)%nat).
    { intros cs E Hl'. pose proof (section_one_chunk rows window t n c Hl' Hc) as K. rewrite E in K. exact K. }
    set (d := if b then p else removelast p) in *.
    assert (Ld : (1 <= length d)%nat).
    { subst d. destruct b; [lia|]. destruct p as [|x [|y p]]; cbn in L; try lia. cbn. lia. }
    destruct (Nat.eq_dec (length d) 1) as [E1|E1].
    - exists []. rewrite (S1 E1). split; [reflexivity|]. split; [split; [reflexivity|lia]|]. split; [|split; [cbn; lia|exact Hrest]].
      intros r A0. cbn [map List.app]. apply (ascending_weaken r l f); [lia|exact A0].
    - destruct (S2 ltac:(lia)) as (cs & E & Hd & s & e & Hch & Hce). exists cs. split; [exact E|]. split; [split; [lia|intros _; exact Hd]|]. 
      split; [|split; [apply Hone; exact E|exact Hrest]].
      destruct Hce as [[Es|[Es _]] [Ee|[Ee _]]]; try discriminate. injection Es as <-. injection Ee as <-. intros r A0. exact (chain_ascending _ _ _ _ Hch A0). }
  induction H as [|tp f l F L|tp f l tps us N F L H IH]; intros ps Etps HL pre rest lo Em Hlo (mss & Er & Ep & HN).
  - destruct ps; [|discriminate]. exists []. cbn. repeat split; constructor.
  - destruct ps as [|p [|]]; try discriminate. injection Etps as ->. apply Forall_inv in HL.
    destruct (One mss pre rest p [] lo Em Hlo Er Ep HN) as (pre2 & rest2 & mss2 & Em2 & _ & _ & _ & Hlo2).
    destruct (Sec pre2 p rest2 f l true Em2 HL F L) as (cs & E & Hs & Ha & Hone & _).
    exists [cs]. cbn [hdf_load concat map cut_runs]. rewrite E. unfold gen_app. cbn [fst snd]. rewrite !app_nil_r. split; [reflexivity|].
    split; [constructor; [exact Hs|constructor]|]. split; [|intros Hl'; constructor; [exact (Hone Hl')|constructor]].
    apply (ascending_weaken _ f lo); [apply Hlo2, map_fst_first; exact F|]. specialize (Ha [] I). rewrite app_nil_r in Ha. exact Ha.
  - destruct ps as [|p ps]; [discriminate|]. injection Etps as -> ->. apply Forall_cons_iff in HL. destruct HL as [L1 L2].
    destruct (One mss pre rest p ps lo Em Hlo Er Ep HN) as (pre2 & rest2 & mss2 & Em2 & Er2 & Ep2 & HN2 & Hlo2).
    destruct (Sec pre2 p rest2 f l false Em2 L1 F L) as (cs & E & Hs & Ha & Hone & Hl2).
    destruct (IH ps eq_refl L2 (pre2 ++ p) rest2 l) as (css & E2 & Q1 & Q2 & Q3); [rewrite <- app_assoc; exact Em2|exact Hl2|exists mss2; auto|].
    exists (cs :: css). assert (Ecut : cut_runs (p :: ps) = removelast p :: cut_runs ps) by (destruct ps; [destruct (N eq_refl)|reflexivity]).
    rewrite Ecut. cbn [hdf_load concat]. rewrite E, E2. unfold gen_app. cbn [fst snd]. split; [reflexivity|]. split; [constructor; assumption|].
    split; [|intros Hl'; constructor; [exact (Hone Hl')|exact (Q3 Hl')]].
    rewrite map_app. apply (ascending_weaken _ f lo); [apply Hlo2, map_fst_first; exact F|]. apply Ha. exact Q2.
Qed.

(** ** The good sections of a meter *)

Definition pieces {A} (ms : list (list (sample A))) : list (list (sample A)) := long_runs (cut_runs (long_runs ms)).

Lemma long_map {A B} (f : A -> B) ms : long_runs (map (map f) ms) = map (map f) (long_runs ms).
Proof.
  unfold long_runs. induction ms as [|p ms IH]; [reflexivity|]. cbn [map filter]. rewrite map_length. destruct (Nat.leb 2 (length p)); cbn [map]; rewrite IH; reflexivity.
Qed.

Lemma validity_within {A} (v : A -> bool) window rows m : rows_within window rows m -> rows_within window (validity v rows) (validity v m).
Proof. unfold rows_within, validity. induction 1 as [|x l m Hx F IH|x l m Hx F IH]; cbn [map]; constructor; auto. Qed.
Lemma validity_fst {A} (v : A -> bool) rows : map fst (validity v rows) = map fst rows.
Proof. unfold validity. rewrite map_map. reflexivity. Qed.
Lemma validity_increasing {A} (v : A -> bool) rows : increasing rows -> increasing (validity v rows).
Proof. unfold validity. induction rows as [|x [|y l] IH]; intros H; [exact I|exact I|]. cbn [map increasing fst] in *. destruct H as [H1 H2]. split; [exact H1|apply IH; exact H2]. Qed.

Lemma good_framed {A} (v : A -> bool) msp (rows m : list (sample A)) window ms last :
  0 <= msp -> increasing rows -> Forall (fun r => v (snd r) = true) rows -> rows_within window rows m -> (2 <= length m)%nat ->
  row_runs msp m ms -> last_time m last -> ends_there msp rows last ->
  exists us, (forall c, (1 <= c)%nat -> whole_good msp (validity v rows) window c = Ok us) /\ nonempty us = us /\
    framed (map (map fst) (long_runs ms)) us /\ Forall (fun p => p <> []) ms.
Proof.
  intros Hm Hinc Hv Hw L [Ec Hr] Hl He.
  assert (Hnan : nan_free (validity v rows)).
  { unfold nan_free, validity. apply Forall_map. eapply Forall_impl; [|exact Hv]. auto. }
  assert (Hno : ~ goes_on msp (validity v rows) last).
  { intros (r & Hin & _ & H). unfold validity in Hin. apply in_map_iff in Hin. destruct Hin as (r0 & <- & Hin). exact (He r0 Hin H). }
  destruct (good_whole msp (validity v rows) window (validity v m) (map (map fst) ms) last Hm (validity_increasing v rows Hinc) Hnan (validity_within v _ _ _ Hw)) as (b & e & ts & us & Hb & _ & Hf & Hlc & HW).
  - unfold validity. rewrite map_length. exact L.
  - rewrite validity_fst. exact Hr.
  - rewrite validity_fst. destruct Hl as (z & q & -> & <-). exists (map fst q). rewrite map_app. reflexivity.
  - intros H. contradiction.
  - assert (b = false) by (destruct b; [destruct (Hno (proj1 Hb eq_refl))|reflexivity]). subst b.
    assert (HN : Forall (fun r => r <> []) (map (map fst) ms)) by (destruct Hr as (_ & K & _); eapply Forall_impl; [|exact K]; cbv beta; tauto).
    pose proof (frames_framed e ts us Hlc _ Hf HN) as HF. rewrite long_map in HF.
    exists us. split; [exact HW|]. split; [exact (framed_nonempty _ _ HF)|]. split; [exact HF|].
    rewrite Forall_forall in HN |- *. intros p Hp ->. apply (HN []); [apply in_map_iff; exists []; split; [reflexivity|exact Hp]|reflexivity].
Qed.

Lemma framed_load {A} (rows m : list (sample A)) window ms us c :
  increasing rows -> rows_within window rows m -> (2 <= length m)%nat -> concat ms = m -> Forall (fun p => p <> []) ms ->
  framed (map (map fst) (long_runs ms)) us -> (1 <= c)%nat ->
  exists css, hdf_load rows window us 0 c = (concat css, None) /\
    Forall2 (run_served c) (cut_runs (long_runs ms)) css /\ Forall (fun ch => usable (c_tf ch)) (concat css) /\ no_overlap (map c_tf (concat css)) /\
    ((length rows <= c)%nat -> Forall (fun cs => (length cs <= 1)%nat) css).
Proof.
  intros Hinc Hw L Ec HN HF Hc.
  destruct m as [|x0 m0] eqn:Em; [cbn in L; lia|]. rewrite <- Em in *.
  destruct (runs_load rows m window 0 c Hinc Hw Hc us (long_runs ms) HF) with (pre := @nil (sample A)) (rest := m) (lo := fst x0) as (css & E & Q1 & Q2 & Q3).
  + rewrite Forall_forall. intros p Hp. unfold long_runs in Hp. apply filter_In in Hp. destruct Hp as [_ Hp]. apply Nat.leb_le in Hp. exact Hp.
  + reflexivity.
  + pose proof (is_filter_sorted _ _ _ Hw (proj1 (increasing_sorted rows) Hinc)) as HS. rewrite Em in HS |- *. apply StronglySorted_inv in HS. destruct HS as [_ HS].
    rewrite Forall_forall in HS. intros x [<-|Hx]; [lia|]. specialize (HS _ Hx). unfold slt in HS. lia.
  + exists ms. split; [symmetry; exact Ec|]. split; [reflexivity|exact HN].
  + exists css. split; [exact E|]. split; [exact Q1|].
    split; [apply Forall_map, (ascending_usable _ _ Q2)|]. split; [exact (ascending_no_overlap _ _ Q2)|exact Q3].
Qed.

Lemma good_load {A} (v : A -> bool) msp (rows m : list (sample A)) window ms last c :
  0 <= msp -> increasing rows -> Forall (fun r => v (snd r) = true) rows -> rows_within window rows m -> (2 <= length m)%nat ->
  row_runs msp m ms -> last_time m last -> ends_there msp rows last -> (1 <= c)%nat ->
  exists us css, whole_good msp (validity v rows) window c = Ok us /\ nonempty us = us /\ hdf_load rows window us 0 c = (concat css, None) /\
    Forall2 (run_served c) (cut_runs (long_runs ms)) css /\ Forall (fun ch => usable (c_tf ch)) (concat css) /\ no_overlap (map c_tf (concat css)) /\
    ((length rows <= c)%nat -> Forall (fun cs => (length cs <= 1)%nat) css).
Proof.
  intros Hm Hinc Hv Hw L Hr Hl He Hc. destruct (good_framed v msp rows m window ms last Hm Hinc Hv Hw L Hr Hl He) as (us & HW & En & HF & HN).
  destruct (framed_load rows m window ms us c Hinc Hw L (proj1 Hr) HN HF Hc) as (css & H). exists us, css. split; [exact (HW c Hc)|]. split; [exact En|exact H].
Qed.

(** ** Dropout rate *)

Lemma served_chunk {A} c (p : list (sample A)) cs ch : delivers cs p c -> In ch cs -> exists pre post, p = pre ++ c_rows ch ++ post.
Proof.
  intros (E & Hsh & _). revert p E. induction cs as [|a [|b cs] IH]; intros p E Hin; [destruct Hin| |].
  - destruct Hin as [->|[]]. cbn in E. exists [], []. rewrite <- E. reflexivity.
  - destruct Hsh as [(x & pre & post & Ea & Eb) Hsh]. destruct Hin as [->|Hin].
    + exists [], (concat (map (fun c' => tl (c_rows c')) (b :: cs))). rewrite <- E. reflexivity.
    + destruct (IH Hsh (unshared (b :: cs)) eq_refl Hin) as (q & r & E2). exists (pre ++ q), r. rewrite <- app_assoc, <- E2, <- E.
      unfold unshared. cbn [map concat]. rewrite Ea, Eb. cbn [tl]. rewrite <- !app_assoc. reflexivity.
Qed.

Lemma delivers_ne {A} c (p : list (sample A)) cs : (2 <= length p)%nat -> delivers cs p c -> cs <> [].
Proof. intros L (E & _) ->. cbn in E. subst p. cbn in L. lia. Qed.

Lemma served_no {A} c (ps : list (list (sample A))) css : Forall2 (run_served c) ps css -> Forall (fun p => p <> []) ps -> long_runs ps = [] -> concat css = [].
Proof.
  induction 1 as [|p cs ps css [H1 H2] H IH]; intros HN E; [reflexivity|]. apply Forall_cons_iff in HN. destruct HN as [N1 N2]. unfold long_runs in *. cbn [filter] in E. destruct (Nat.leb 2 (length p)) eqn:L; [discriminate|].
  apply Nat.leb_gt in L. cbn [concat]. rewrite (IH N2 E). rewrite H1; [reflexivity|]. destruct p as [|x [|y p]]; [contradiction|reflexivity|cbn in L; lia].
Qed.
Lemma served_some {A} c (ps : list (list (sample A))) css : Forall2 (run_served c) ps css -> long_runs ps <> [] -> concat css <> [].
Proof.
  induction 1 as [|p cs ps css [H1 H2] H IH]; intros E; [destruct (E eq_refl)|]. unfold long_runs in *. cbn [filter] in E. cbn [concat]. destruct (Nat.leb 2 (length p)) eqn:L.
  - apply Nat.leb_le in L. pose proof (delivers_ne c p cs L (H2 L)). destruct cs; [contradiction|discriminate].
  - intros K. apply app_eq_nil in K. exact (IH E (proj2 K)).
Qed.

Lemma cut_ne {A} (ps : list (list A)) : Forall (fun p => (2 <= length p)%nat) ps -> Forall (fun p => p <> []) (cut_runs ps).
Proof.
  induction 1 as [|p ps H HF IH]; [constructor|]. cbn [cut_runs]. destruct ps as [|q ps]; constructor; [|constructor| |exact IH].
  - intros ->. cbn in H. lia.
  - destruct p as [|x [|y p]]; cbn in H; try lia. discriminate.
Qed.
Lemma long_long {A} (ms : list (list A)) : Forall (fun p => (2 <= length p)%nat) (long_runs ms).
Proof. rewrite Forall_forall. intros p Hp. unfold long_runs in Hp. apply filter_In in Hp. destruct Hp as [_ Hp]. apply Nat.leb_le in Hp. exact Hp. Qed.

Lemma gaps_load {A} (v : A -> bool) msp period (rows m : list (sample A)) window ms last c :
  0 <= msp -> 0 < period -> increasing rows -> Forall (fun r => v (snd r) = true) rows -> rows_within window rows m -> (2 <= length m)%nat ->
  row_runs msp m ms -> last_time m last -> ends_there msp rows last -> (1 <= c)%nat ->
  exists css d, dropout_ignoring_gaps v msp period rows window c = dropout_simple d /\
    Forall2 (run_served c) (cut_runs (long_runs ms)) css /\ Forall (fun ch => StronglySorted slt (c_rows ch)) (concat css) /\
    ((length rows <= c)%nat -> Forall (fun cs => (length cs <= 1)%nat) css) /\
    Permutation d (map row_of (map (fun ch => (c_tf ch, chunk_drop period ch)) (concat css))).
Proof.
  intros Hm Hp Hinc Hv Hw L Hr Hl He Hc. destruct (good_load v msp rows m window ms last c Hm Hinc Hv Hw L Hr Hl He Hc) as (us & css & Eg & En & El & HS & HU & HN & H1).
  assert (Hs : Forall (fun ch => StronglySorted slt (c_rows ch)) (concat css)).
  { rewrite Forall_forall. intros ch Hin. destruct (load_look rows window us 0 c ch) as (pre & post & E & _); [rewrite El; exact Hin| |].
    - clear -HS Hin. assert (HP := cut_ne _ (long_long ms)). revert HP Hin. induction HS as [|p cs ps css [S1 S2] S IH]; intros HP Hin; [destruct Hin|]. apply Forall_cons_iff in HP. destruct HP as [P1 P2].
      cbn [concat] in Hin. apply in_app_or in Hin. destruct Hin as [Hin|Hin]; [|exact (IH P2 Hin)].
      assert (Lp : (length p = 1 \/ 2 <= length p)%nat) by (destruct p as [|x [|y p]]; [contradiction|left; reflexivity|right; cbn; lia]).
      destruct Lp as [Lp|Lp]; [rewrite (S1 Lp) in Hin; destruct Hin|]. destruct (S2 Lp) as (_ & _ & K). rewrite Forall_forall in K. specialize (K _ Hin). intros E. rewrite E in K. cbn in K. lia.
    - pose proof (proj1 (increasing_sorted rows) Hinc) as K. rewrite E in K. apply sorted_app in K. destruct K as (_ & K & _). apply sorted_app in K. tauto. }
  destruct (drop_rows period (concat css) Hp Hs HU HN) as (d & Ed & Hd). exists css, d.
  unfold dropout_ignoring_gaps. rewrite Eg. cbn [bind]. rewrite En, El, Ed. cbn [bind]. repeat (split; [first [assumption|reflexivity]|]). exact Hd.
Qed.

Lemma gaps_none {A} (v : A -> bool) msp period (rows m : list (sample A)) window ms last c :
  0 <= msp -> 0 < period -> increasing rows -> Forall (fun r => v (snd r) = true) rows -> rows_within window rows m -> (2 <= length m)%nat ->
  row_runs msp m ms -> last_time m last -> ends_there msp rows last -> (1 <= c)%nat -> long_runs (cut_runs (long_runs ms)) = [] ->
  dropout_ignoring_gaps v msp period rows window c = Err KeyError.
Proof.
  intros Hm Hp Hinc Hv Hw L Hr Hl He Hc E0. destruct (gaps_load v msp period rows m window ms last c Hm Hp Hinc Hv Hw L Hr Hl He Hc) as (css & d & E & HS & _ & _ & Hd).
  rewrite E. rewrite (served_no c _ css HS (cut_ne _ (long_long ms)) E0) in Hd. apply Permutation_sym, Permutation_nil in Hd. subst d. reflexivity.
Qed.

Lemma gaps_range {A} (v : A -> bool) msp period (rows m : list (sample A)) window ms last c :
  0 <= msp -> 0 < period -> increasing rows -> Forall (fun r => v (snd r) = true) rows -> rows_within window rows m -> (2 <= length m)%nat ->
  row_runs msp m ms -> last_time m last -> ends_there msp rows last -> (1 <= c)%nat -> long_runs (cut_runs (long_runs ms)) <> [] ->
  exists q, dropout_ignoring_gaps v msp period rows window c = Ok q /\ (0 <= q <= 1)%Q.
Proof.
  intros Hm Hp Hinc Hv Hw L Hr Hl He Hc E0. destruct (gaps_load v msp period rows m window ms last c Hm Hp Hinc Hv Hw L Hr Hl He Hc) as (css & d & E & HS & Hs & _ & Hd).
  rewrite E.
  assert (K : forall r, In r d -> exists ch, In ch (concat css) /\ r_val r = chunk_drop period ch).
  { intros r Hi. apply (Permutation_in _ Hd) in Hi. rewrite map_map in Hi. apply in_map_iff in Hi. destruct Hi as (ch & <- & Hch). exists ch. split; [exact Hch|reflexivity]. }
  apply dropout_simple_range; [apply (perm_ne _ _ _ Hd), map_ne, (served_some c _ _ HS E0)| |]; rewrite Forall_forall; intros r Hi; destruct (K r Hi) as (ch & Hch & E'); rewrite E'; unfold chunk_drop; cbn [d_n d_rate]; [lia|].
  intros x Hx. rewrite Forall_forall in Hs.
  destruct (dropout_in_range (map fst (c_rows ch)) period Hp (map_fst_sorted _ (Hs _ Hch))) as [[_ E2]|(a & b & n & q & _ & _ & _ & E2 & R & _)]; rewrite E2 in Hx; [discriminate|].
  injection Hx as <-. exact R.
Qed.

Lemma regular_perfect {A} period (p : list (sample A)) : regular period p -> perfectly_sampled (map fst p) period.
Proof.
  induction p as [|x [|y p] IH]; intros H k a b Ha Hb; [destruct k; discriminate|destruct k as [|[|k]]; discriminate|]. destruct H as [H1 H2].
  destruct k as [|k]; [cbn in Ha, Hb; injection Ha as <-; injection Hb as <-; lia|]. exact (IH H2 k a b Ha Hb).
Qed.
Lemma perfect_infix (pre l post : list Z) period : perfectly_sampled (pre ++ l ++ post) period -> perfectly_sampled l period.
Proof.
  intros H k x y Hx Hy. apply (H (length pre + k)%nat).
  - rewrite nth_error_app2 by lia. replace (length pre + k - length pre)%nat with k by lia. rewrite nth_error_app1; [exact Hx|]. apply nth_error_Some. congruence.
  - rewrite nth_error_app2 by lia. replace (S (length pre + k) - length pre)%nat with (S k) by lia. rewrite nth_error_app1; [exact Hy|]. apply nth_error_Some. congruence.
Qed.

Lemma cut_infix {A} (ps : list (list A)) : Forall2 (fun p q => exists post, q = p ++ post) (cut_runs ps) ps.
Proof.
  induction ps as [|p ps IH]; [constructor|]. cbn [cut_runs]. destruct ps as [|q ps]; constructor; [exists []; symmetry; apply app_nil_r|constructor| |exact IH].
  destruct p as [|z p] using rev_ind; [exists []; reflexivity|]. exists [z]. rewrite removelast_last. reflexivity.
Qed.

Lemma combined_zero data : Forall (fun r => forall x, d_rate (r_val r) = Some x -> (x == 0)%Q) data -> (dropout_combined data == 0)%Q.
Proof.
  intros H. unfold dropout_combined. generalize (tot_samples data) as tot. intros tot. induction data as [|r data IH]; [reflexivity|].
  apply Forall_cons_iff in H. destruct H as [H1 H2]. cbn [map fold_right]. rewrite (IH H2). unfold dropout_term. destruct (d_rate (r_val r)) as [x|]; [|reflexivity].
  destruct (tot =? 0); [reflexivity|]. rewrite (H1 x eq_refl). ring.
Qed.

Lemma gaps_regular {A} (v : A -> bool) msp period (rows m : list (sample A)) window ms last c :
  0 <= msp -> 0 < period -> increasing rows -> Forall (fun r => v (snd r) = true) rows -> rows_within window rows m -> (2 <= length m)%nat ->
  row_runs msp m ms -> last_time m last -> ends_there msp rows last -> (1 <= c)%nat -> long_runs (cut_runs (long_runs ms)) <> [] ->
  Forall (regular period) ms ->
  exists q, dropout_ignoring_gaps v msp period rows window c = Ok q /\ (q == 0)%Q.
Proof.
  intros Hm Hp Hinc Hv Hw L Hr Hl He Hc E0 Hreg. destruct (gaps_load v msp period rows m window ms last c Hm Hp Hinc Hv Hw L Hr Hl He Hc) as (css & d & E & HS & Hs & _ & Hd).
  rewrite E. exists (dropout_combined d). split; [apply simple_combined, (perm_ne _ _ _ Hd), map_ne, (served_some c _ _ HS E0)|].
  apply combined_zero. rewrite Forall_forall. intros r Hi. apply (Permutation_in _ Hd) in Hi. rewrite map_map in Hi. apply in_map_iff in Hi. destruct Hi as (ch & <- & Hch).
  cbn [row_of r_val snd fst chunk_drop d_rate].
  assert (HP : Forall (fun p : list (sample A) => perfectly_sampled (map fst p) period) (cut_runs (long_runs ms))).
  { assert (HL : Forall (fun p : list (sample A) => perfectly_sampled (map fst p) period) (long_runs ms)).
    { rewrite Forall_forall in *. intros p Hi. unfold long_runs in Hi. apply filter_In in Hi. apply regular_perfect, Hreg. tauto. }
    pose proof (cut_infix (long_runs ms)) as K. revert K HL. generalize (cut_runs (long_runs ms)) as qs0. generalize (long_runs ms) as ps0. clear. intros ps0 qs0 K. induction K as [|p q ps qs (post & ->) K IH]; intros HL; [constructor|]. apply Forall_cons_iff in HL. destruct HL as [L1 L2].
    constructor; [|exact (IH L2)]. rewrite map_app in L1. exact (perfect_infix [] _ _ _ L1). }
  assert (Hch2 : perfectly_sampled (map fst (c_rows ch)) period).
  { clear -HS HP Hch. assert (HN := cut_ne _ (long_long ms)). revert HN HP Hch. induction HS as [|p cs ps css [S1 S2] S IH]; intros HN HP Hch; [destruct Hch|].
    apply Forall_cons_iff in HN, HP. destruct HN as [N1 N2], HP as [P1 P2]. cbn [concat] in Hch. apply in_app_or in Hch. destruct Hch as [Hin|Hin]; [|exact (IH N2 P2 Hin)].
    assert (Lp : (length p = 1 \/ 2 <= length p)%nat) by (destruct p as [|x [|y p]]; [contradiction|left; reflexivity|right; cbn; lia]).
    destruct Lp as [Lp|Lp]; [rewrite (S1 Lp) in Hin; destruct Hin|]. destruct (served_chunk c p cs ch (S2 Lp) Hin) as (pre & post & E). rewrite E, !map_app in P1. exact (perfect_infix _ _ _ _ P1). }
  intros x Hx. destruct (Nat.le_gt_cases 5 (length (c_rows ch))) as [K|K].
  - destruct (dropout_perfect (map fst (c_rows ch)) period Hp Hch2) as (q & E2 & Hq); [rewrite map_length; exact K|]. rewrite E2 in Hx. injection Hx as <-. exact Hq.
  - unfold get_dropout_rate in Hx. rewrite map_length in Hx. replace (Z.of_nat (length (c_rows ch)) <? 5) with true in Hx by lia. discriminate.
Qed.

(** The mean over one chunk per section. *)

Lemma qsum_perm l l' : Permutation l l' -> (fold_right Qplus 0 l == fold_right Qplus 0 l')%Q.
Proof. induction 1 as [|x l l' _ IH|x y l|l l' l'' _ IH1 _ IH2]; cbn [fold_right]; [reflexivity|rewrite IH; reflexivity|ring|rewrite IH1; exact IH2]. Qed.

Definition rate0 (d : dropout) : Q := match d_rate d with Some x => x | None => 0%Q end.

Lemma combined_total data : tot_samples data <> 0 ->
  (dropout_combined data * inject_Z (tot_samples data) == fold_right Qplus 0 (map (fun r => rate0 (r_val r) * inject_Z (d_n (r_val r))) data))%Q.
Proof.
  unfold dropout_combined. generalize (tot_samples data) as tot. intros tot Ht. induction data as [|r data IH]; cbn [map fold_right]; [ring|].
  rewrite <- IH. unfold dropout_term, rate0. destruct (d_rate (r_val r)) as [x|]; [|ring]. replace (tot =? 0) with false by lia.
  assert (~ (inject_Z tot == 0)%Q) by (apply inject_Z_nonzero; exact Ht). field. exact H.
Qed.

Lemma chunk_rate {A} period (ch : chunk A) : 0 < period -> StronglySorted slt (c_rows ch) -> missing_rate period (c_rows ch) (rate0 (chunk_drop period ch)).
Proof.
  intros Hp HS. unfold rate0, chunk_drop. cbn [d_rate]. generalize (c_rows ch) HS. clear ch HS. intros m HS.
  destruct (dropout_in_range (map fst m) period Hp (map_fst_sorted _ HS)) as [[Hl E']|(a & b & n & q & Ha & Hb & Hn & E' & R & Eq)]; rewrite E'.
  - left. rewrite map_length in Hl. split; [exact Hl|reflexivity].
  - assert (Hl : (5 <= length m)%nat).
    { destruct (Nat.le_gt_cases 5 (length m)) as [K|K]; [exact K|]. unfold get_dropout_rate in E'. rewrite map_length in E'.
      replace (Z.of_nat (length m) <? 5) with true in E' by lia. discriminate. }
    right. split; [exact Hl|]. exists a, b, n. split; [|split; [|split; [exact Hn|]]].
    + destruct m as [|y m]; [discriminate|]. injection Ha as <-. exists y, m. split; reflexivity.
    + destruct m as [|y m'] using rev_ind; [discriminate|]. rewrite map_app in Hb. cbn [map] in Hb. rewrite last_opt_snoc in Hb. injection Hb as <-.
      exists y, m'. split; reflexivity.
    + rewrite map_length in Eq. exact Eq.
Qed.

Lemma served_once {A} c (ps : list (list (sample A))) css : Forall2 (run_served c) ps css -> Forall (fun p => p <> []) ps -> Forall (fun cs => (length cs <= 1)%nat) css ->
  map (@c_rows A) (concat css) = long_runs ps.
Proof.
  induction 1 as [|p cs ps css [S1 S2] S IH]; intros HN HL; [reflexivity|]. apply Forall_cons_iff in HN, HL. destruct HN as [N1 N2], HL as [L1 L2].
  cbn [concat]. rewrite map_app, (IH N2 L2). unfold long_runs. cbn [filter].
  destruct (Nat.leb 2 (length p)) eqn:L; [apply Nat.leb_le in L|apply Nat.leb_gt in L].
  - pose proof (S2 L) as Hd. pose proof (delivers_ne _ _ _ L Hd) as Hne. destruct cs as [|ch [|ch2 cs]]; [contradiction| |cbn in L1; lia].
    destruct Hd as (E & _). cbn in E. rewrite app_nil_r in E. cbn. rewrite E. reflexivity.
  - rewrite S1; [reflexivity|]. destruct p as [|x [|y p]]; [contradiction|reflexivity|cbn in L; lia].
Qed.

Lemma gaps_once {A} (v : A -> bool) msp period (rows m : list (sample A)) window ms last c :
  0 <= msp -> 0 < period -> increasing rows -> Forall (fun r => v (snd r) = true) rows -> rows_within window rows m -> (2 <= length m)%nat ->
  row_runs msp m ms -> last_time m last -> ends_there msp rows last -> (length rows <= c)%nat -> long_runs (cut_runs (long_runs ms)) <> [] ->
  exists q, dropout_ignoring_gaps v msp period rows window c = Ok q /\ weighted_missing period (long_runs (cut_runs (long_runs ms))) q.
Proof.
  intros Hm Hp Hinc Hv Hw L Hr Hl He Hc E0.
  assert (Hlen : (2 <= length rows)%nat).
  { assert (length m <= length rows)%nat; [|lia]. clear -Hw. induction Hw; cbn; lia. }
  assert (Hc1 : (1 <= c)%nat) by lia.
  destruct (gaps_load v msp period rows m window ms last c Hm Hp Hinc Hv Hw L Hr Hl He Hc1) as (css & d & E & HS & Hs & H1 & Hd).
  rewrite E. exists (dropout_combined d). split; [apply simple_combined, (perm_ne _ _ _ Hd), map_ne, (served_some c _ _ HS E0)|].
  pose proof (served_once c _ css HS (cut_ne _ (long_long ms)) (H1 Hc)) as Eps.
  set (ps := long_runs (cut_runs (long_runs ms))) in *. set (chs := concat css) in *.
  exists (map (fun ch => rate0 (chunk_drop period ch)) chs). split.
  - rewrite <- Eps. clear -Hs Hp. induction Hs as [|ch chs H Hs IH]; cbn [map]; constructor; [apply chunk_rate; assumption|exact IH].
  - assert (Et : tot_samples d = Z.of_nat (length (concat ps))).
    { unfold tot_samples. rewrite (sumZ_perm _ (map (fun r => d_n (r_val r)) (map row_of (map (fun ch => (c_tf ch, chunk_drop period ch)) chs)))) by (apply Permutation_map; exact Hd).
      rewrite !map_map. cbn [row_of r_val snd chunk_drop d_n]. rewrite <- Eps. clear. induction chs as [|ch chs IH]; [reflexivity|]. cbn [map sumZ concat]. rewrite app_length, IH. lia. }
    assert (Hpos : tot_samples d <> 0).
    { rewrite Et. destruct ps as [|p ps'] eqn:Ep; [contradiction|]. pose proof (long_long (cut_runs (long_runs ms))) as K. fold ps in K. rewrite Ep in K. apply Forall_inv in K. cbn [concat]. rewrite app_length. lia. }
    rewrite <- Et, (combined_total d Hpos).
    rewrite (qsum_perm _ (map (fun r => rate0 (r_val r) * inject_Z (d_n (r_val r)))%Q (map row_of (map (fun ch => (c_tf ch, chunk_drop period ch)) chs)))) by (apply Permutation_map; exact Hd).
    rewrite <- Eps. clear. induction chs as [|ch chs IH]; [reflexivity|]. cbn [map combine fold_right]. rewrite IH. cbn [row_of r_val snd fst chunk_drop d_n]. reflexivity.
Qed.
