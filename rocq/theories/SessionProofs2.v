(** Proofs about sessions, continued: which rows are delivered; calls of
    [set_window]; witnesses. *)
From Verif Require Import Base TimeFrameModel TimeFrameSpec TimeFrameProofs StoreModel StoreSpec StoreProofs StoreProofs2.
From Verif Require Import SessionModel SessionSpec SessionProofs.
Open Scope nat_scope.

Lemma shared_rows {A} (cs : list (chunk A)) : forall ch r, share_one_row cs ->
  In ch cs -> In r (c_rows ch) -> In r (unshared cs).
Proof.
  destruct cs as [|a cs]; intros ch r H Hc Hr; [destruct Hc|]. cbn [unshared]. apply in_app_iff.
  destruct Hc as [->|Hc]; [auto|].
  assert (G : forall cs a, share_one_row (a :: cs) -> In ch cs ->
    In r (c_rows a) \/ In r (concat (map (fun c' => tl (c_rows c')) cs))).
  { clear - Hr. induction cs as [|b cs IH]; intros a H Hc; [destruct Hc|].
    destruct H as ((x & pre & post & Ea & Eb) & H).
    assert (Hb : In r (c_rows b) -> In r (c_rows a) \/ In r (concat (map (fun c' => tl (c_rows c')) (b :: cs)))).
    { intros K. rewrite Eb in K. destruct K as [<-|K].
      - left. rewrite Ea. apply in_app_iff. right. left. reflexivity.
      - right. cbn. apply in_app_iff. left. rewrite Eb. exact K. }
    destruct Hc as [->|Hc]; [auto|]. destruct (IH b H Hc) as [K|K]; [auto|].
    right. cbn. apply in_app_iff. right. exact K. }
  exact (G cs a H Hc).
Qed.

Lemma section_rows {A} (rows : list (sample A)) window section n c ch r : increasing rows -> 1 <= c ->
  half_open window -> half_open section ->
  In ch (fst (hdf_load_section rows window section n c)) -> In r (c_rows ch) ->
  In r rows /\ inTF window (fst r) /\ inTF section (fst r).
Proof.
  intros I C HW HS Hch Hr.
  assert (Irows : In r rows).
  { assert (K : look_ahead_right rows n ch \/ c_rows ch = []).
    { assert (D : In ch (fst (hdf_load rows window [section] n c))).
      { cbn [hdf_load]. destruct (hdf_load_section rows window section n c) as [l [e|]]; cbn in *; [exact Hch|rewrite app_nil_r; exact Hch]. }
      destruct (c_rows ch) eqn:Ec; [auto|]. left. eapply load_look; eauto. congruence. }
    destruct K as [(pre & post & E & _)|E]; [|rewrite E in Hr; destruct Hr].
    rewrite E. apply in_app_iff. right. apply in_app_iff. left. exact Hr. }
  split; [exact Irows|].
  destruct (intersection_spec window section) as (w & Ew & Hw & _). apply Hw.
  pose proof (isect_half_open _ _ _ HW HS Ew) as Hh.
  destruct (tf_empty w) eqn:Em.
  { unfold hdf_load_section in Hch. rewrite Ew, Em in Hch. destruct Hch as [<-|[]]. destruct Hr. }
  destruct (tf_start w) as [s|] eqn:Es, (tf_end w) as [e|] eqn:Ee.
  4:{ split; [exact Em|]. rewrite Es, Ee. split; discriminate. }
  all: assert (B : tf_start w <> None \/ tf_end w <> None) by (rewrite Es, Ee; first [left; discriminate|right; discriminate]).
  all: destruct (is_filter_exists (fun r => inTFc w (fst r)) rows) as (m & Hm);
       [intros x; rewrite <- inTFcb_spec; destruct (inTFcb w (fst x)); auto|].
  all: destruct (section_bounded rows window section w m n c I C Ew Em B Hm) as (K0 & K1 & K2).
  all: assert (G : In r m -> inTF w (fst r)) by (intros K; apply (is_filter_in _ _ _ _ Hm) in K as (_ & K); apply inTFc_half_open; auto).
  all: apply G; destruct (Nat.eq_dec (length m) 0) as [L0|L0];
       [destruct m; [rewrite K0 in Hch by reflexivity; destruct Hch as [<-|[]]; destruct Hr|discriminate]|].
  all: destruct (Nat.eq_dec (length m) 1) as [L1|L1]; [rewrite K1 in Hch by exact L1; destruct Hch|].
  all: destruct K2 as (cs & Ecs & (D1 & D2 & _) & _); [lia|]; rewrite Ecs in Hch; cbn in Hch; rewrite <- D1;
       exact (shared_rows cs ch r D2 Hch Hr).
Qed.

Section Session.
Context {A : Type}.
Variable tables : nat -> option (list (sample A)).
Variable zone : option (Z -> res Z).

Lemma in_firstn {B} (x : B) n l : In x (firstn n l) -> In x l.
Proof. revert l; induction n as [|n IH]; intros [|y l] H; cbn in *; try tauto. destruct H; auto. Qed.

Lemma in_stream (g : gen (chunk A)) m ch : In (Got ch) (stream g m) -> In ch (fst g).
Proof.
  unfold stream. intros H. apply in_firstn in H. apply in_app_iff in H as [H|H].
  - apply in_map_iff in H as (x & [= ->] & H). exact H.
  - apply in_app_iff in H as [H|H].
    + destruct (snd g); [destruct H as [H|[]]; discriminate|destruct H].
    + apply repeat_spec in H. discriminate.
Qed.

Lemma in_sections key n c ch : forall ws ss, In ch (fst (sections_under tables key n c ws ss)) ->
  exists w s, In w ws /\ In s ss /\ In ch (fst (begin_section tables key w s n c)).
Proof.
  induction ws as [|w ws IH]; intros [|s ss] H; cbn [sections_under] in H; try (destruct H; fail).
  destruct (begin_section tables key w s n c) as [l [e|]] eqn:B; cbn [gen_app fst] in H.
  - exists w, s. rewrite B. repeat split; auto; left; reflexivity.
  - apply in_app_iff in H as [H|H].
    + exists w, s. rewrite B. repeat split; auto; left; reflexivity.
    + apply IH in H as (w' & s' & ? & ? & ?). exists w', s'. repeat split; auto; right; auto.
Qed.

Lemma in_answers g (l : trace A) r : In (Next g, r) l -> In r (answers g l).
Proof.
  induction l as [|[o x] l IH]; intros H; [destruct H|]. destruct H as [[= -> ->]|H].
  - cbn. rewrite Nat.eqb_refl. left. reflexivity.
  - cbn. destruct o; auto. destruct (Nat.eqb g0 g); [right|]; auto.
Qed.

Lemma used_half_open la lb g w : @used A zone la lb g w -> half_open w.
Proof.
  intros (l1 & r & l2 & _ & [(-> & _)|(a & s & e & b & lo & _ & _ & _ & K)]); [reflexivity|].
  apply K.
Qed.

Lemma rows_confined pre post key ss n c la lb rows ch r :
  fst (run tables zone opened (pre ++ Load key ss n c :: post)) = la ++ (Load key ss n c, Done) :: lb -> length la = length pre ->
  tables key = Some rows -> increasing rows -> 1 <= c -> Forall half_open (default_sections ss) ->
  In (Next (loads pre), Got ch) lb -> In r (c_rows ch) ->
  In r rows /\
  (exists w, used zone (la ++ [(Load key ss n c, Done)]) lb (loads pre) w /\ inTF w (fst r)) /\
  (exists s, In s (default_sections ss) /\ inTF s (fst r)).
Proof.
  intros H L T I C HS Hg Hr. apply in_answers in Hg.
  destruct (load_answers tables zone _ _ _ _ _ _ _ _ H L) as [E|(ws & W1 & W2 & W3)]; [rewrite E in Hg; destruct Hg|].
  rewrite W3 in Hg. apply in_stream in Hg. apply in_sections in Hg as (w & s & Hw & Hs & Hch).
  unfold begin_section in Hch. rewrite T in Hch.
  rewrite Forall_forall in W2, HS. pose proof (W2 _ Hw) as U.
  destruct (section_rows rows w s n c ch r I C (used_half_open _ _ _ _ U) (HS _ Hs) Hch Hr) as (R1 & R2 & R3).
  split; [exact R1|]. split; [exists w|exists s]; auto.
Qed.

Lemma no_interference pre post key ss n c :
  let st := snd (run tables zone opened (pre ++ [Load key ss n c])) in
  answers (loads pre) (fst (run tables zone st post)) =
  answers (loads pre) (fst (run tables zone st (filter (concerns (loads pre)) post))).
Proof.
  intros st. apply others_gen; auto. rewrite (asked_for tables zone pre key ss n c st eq_refl). discriminate.
Qed.
End Session.

(** ** Calls of set_window *)

Lemma set_window_ok lo s e :
  (exists w, set_window true (Some lo) s e = Ok w) <->
  (forall x, s = Some x -> exists t i, x = Naive t /\ lo t = Ok i) /\
  (forall x, e = Some x -> exists t i, x = Naive t /\ lo t = Ok i) /\
  (forall a b, s = Some (Naive a) -> e = Some (Naive b) -> (a < b)%Z).
Proof.
  unfold set_window, frame_in_zone. cbn [negb]. split.
  - intros (w & H).
    destruct s as [[a|a]|], e as [[b|b]|]; cbn in H;
    repeat (match type of H with
            | context [lo ?x] => destruct (lo x) eqn:?; cbn in H
            | context [(?x <=? ?y)%Z] => destruct (x <=? y)%Z eqn:?; cbn in H
            end; try discriminate H); try discriminate H.
    all: split; [|split]; try (intros ? [= <-]; eauto); try (intros ? [=]); try (intros ? ? [= <-] [= <-]; lia); try (intros ? ? [=] ?); try (intros ? ? ? [=]).
  - intros (H1 & H2 & H3).
    destruct s as [xs|]; [destruct (H1 _ eq_refl) as (a & i & -> & Ea)|];
    (destruct e as [xe|]; [destruct (H2 _ eq_refl) as (b & j & -> & Eb)|]); cbn.
    + specialize (H3 _ _ eq_refl eq_refl). destruct (b <=? a)%Z eqn:El; [lia|]. cbn. rewrite Ea. cbn. rewrite Eb. cbn. eauto.
    + rewrite Ea. cbn. eauto.
    + rewrite Eb. cbn. eauto.
    + eauto.
Qed.

Lemma set_window_errors :
  (forall zone s e, set_window false zone s e = Err RuntimeError) /\
  (forall b s e, set_window b None s e = Err RuntimeError) /\
  (forall lo a b, (b <= a)%Z -> set_window true (Some lo) (Some (Naive a)) (Some (Naive b)) = Err ValueError /\
     set_window true (Some lo) (Some (Aware a)) (Some (Aware b)) = Err ValueError) /\
  (forall lo a b, set_window true (Some lo) (Some (Aware a)) (Some (Naive b)) = Err TypeError /\
     set_window true (Some lo) (Some (Naive b)) (Some (Aware a)) = Err TypeError) /\
  (forall lo a b, (a < b)%Z -> set_window true (Some lo) (Some (Aware a)) (Some (Aware b)) = Err TypeError) /\
  (forall lo a, set_window true (Some lo) (Some (Aware a)) None = Err TypeError /\
     set_window true (Some lo) None (Some (Aware a)) = Err TypeError).
Proof.
  repeat split; intros; try reflexivity.
  - destruct b; reflexivity.
  - unfold set_window, frame_in_zone; cbn. replace (b <=? a)%Z with true by lia. reflexivity.
  - unfold set_window, frame_in_zone; cbn. replace (b <=? a)%Z with true by lia. reflexivity.
  - unfold set_window, frame_in_zone; cbn. replace (b <=? a)%Z with false by lia. reflexivity.
Qed.

(** ** Witnesses *)

Definition wit_rows : list (sample Z) := [(1, 10); (2, 20); (3, 30); (4, 40); (5, 50); (6, 60)]%Z.
Definition wit_tables (k : nat) : option (list (sample Z)) := if Nat.eqb k 0 then Some wit_rows else None.
Definition utc : Z -> res Z := fun t => Ok t.
Definition until (e : Z) : op := SetWindow None (Some (Naive e)).
Definition from_ (s : Z) : op := SetWindow (Some (Naive s)) None.

Lemma late_window : exists ch r,
  fst (run wit_tables (Some utc) opened [until 3; Load 0 None 0 100; from_ 4; Next 0]) =
    [(until 3, Done); (Load 0 None 0 100, Done); (from_ 4, Done); (Next 0, Got ch)] /\
  In r (c_rows ch) /\ (3 <= fst r)%Z.
Proof. eexists. exists (4, 40)%Z. split; [vm_compute; reflexivity|]. split; [left; reflexivity|]. discriminate. Qed.

Lemma mixed_windows : exists ss c1 c2 r1 r2,
  fst (run wit_tables (Some utc) opened [until 3; Load 0 (Some ss) 0 100; Next 0; from_ 4; Next 0]) =
    [(until 3, Done); (Load 0 (Some ss) 0 100, Done); (Next 0, Got c1); (from_ 4, Done); (Next 0, Got c2)] /\
  In r1 (c_rows c1) /\ In r2 (c_rows c2) /\ (fst r1 < 3)%Z /\ (4 <= fst r2)%Z.
Proof.
  exists [mkTF (Some 1%Z) (Some 4%Z) true false false; mkTF (Some 4%Z) (Some 7%Z) true false false].
  eexists _, _. exists (1, 10)%Z, (4, 40)%Z. split; [vm_compute; reflexivity|].
  split; [left; reflexivity|]. split; [left; reflexivity|]. cbn. lia.
Qed.

Lemma step_set_window {A} (tables : nat -> option (list (sample A))) lo st s e :
  (fst (step tables (Some lo) st (SetWindow s e)) = Done <->
   (forall x, s = Some x -> exists t i, x = Naive t /\ lo t = Ok i) /\
   (forall x, e = Some x -> exists t i, x = Naive t /\ lo t = Ok i) /\
   (forall a b, s = Some (Naive a) -> e = Some (Naive b) -> (a < b)%Z)) /\
  (fst (step tables (Some lo) st (SetWindow s e)) = Done \/
   exists x, step tables (Some lo) st (SetWindow s e) = (Raised x, st)) /\
  se_cursors (snd (step tables (Some lo) st (SetWindow s e))) = se_cursors st.
Proof.
  rewrite <- set_window_ok. cbn [step]. destruct (set_window true (Some lo) s e) as [w|x]; cbn [fst snd se_cursors].
  - repeat split; eauto.
  - split; [split; [discriminate|]|split; [right; eauto|reflexivity]]. intros (w & [=]).
Qed.

Lemma missing_table {A} (tables : nat -> option (list (sample A))) zone pre post key n c la lb :
  fst (run tables zone opened (pre ++ Load key None n c :: post)) = la ++ (Load key None n c, Done) :: lb ->
  length la = length pre -> tables key = None ->
  (forall x, used zone (la ++ [(Load key None n c, Done)]) lb (loads pre) x -> exists i, inTF x i) ->
  answers (loads pre) lb = stream ([], Some KeyError) (length (answers (loads pre) lb)).
Proof.
  intros H L T U. destruct (load_answers _ _ _ _ _ _ _ _ _ _ H L) as [E|(ws & W1 & W2 & W3)]; [rewrite E; reflexivity|].
  rewrite W3 at 1. f_equal. cbn [default_sections] in *.
  destruct ws as [|w [|w2 ws]]; try discriminate W1. apply Forall_cons_iff in W2 as (W2 & _).
  destruct (U _ W2) as (i & Hi). cbn [sections_under]. unfold begin_section. rewrite T.
  destruct (intersection_spec w tf_cleared) as (x & Ex & _ & He & _). rewrite Ex.
  destruct (tf_empty x) eqn:Em; [|reflexivity]. exfalso. apply (proj1 He eq_refl i). split; [exact Hi|].
  split; [reflexivity|]. split; discriminate.
Qed.
