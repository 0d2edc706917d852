(** Proofs about sessions. *)
From Verif Require Import Base TimeFrameModel TimeFrameSpec TimeFrameProofs StoreModel StoreSpec StoreProofs StoreProofs2.
From Verif Require Import SessionModel SessionSpec.
Open Scope nat_scope.

(** ** The window *)

Lemma set_window_asked b zone s e w : set_window b zone s e = Ok w ->
  exists localize, zone = Some localize /\ asked localize s e w.
Proof.
  unfold set_window. destruct b; [|discriminate]. destruct zone as [lo|]; [|discriminate]. cbn [negb].
  unfold frame_in_zone. intros H. exists lo. split; [reflexivity|].
  destruct (match s, e with Some s, Some e => stamp_le e s | _, _ => Ok false end) as [rv|x]; [|discriminate].
  cbn [bind] in H. destruct rv; [discriminate|].
  destruct (to_instant lo s) as [si|x] eqn:Es; [|discriminate].
  destruct (to_instant lo e) as [ei|x] eqn:Ee; [|discriminate].
  injection H as <-. unfold asked, tf_start, tf_end; cbn.
  assert (K : forall o r, to_instant lo o = Ok r ->
    (forall i, r = Some i <-> exists t, o = Some (Naive t) /\ lo t = Ok i) /\ (r = None <-> o = None)).
  { intros o r Hr. destruct o as [[t|t]|]; cbn in Hr.
    - destruct (lo t) as [i|x] eqn:El; cbn in Hr; [|discriminate]. injection Hr as <-. split.
      + intros j. split; [intros [= <-]; eauto|]. intros (t' & [= <-] & Ht). congruence.
      + split; discriminate.
    - discriminate.
    - injection Hr as <-. split; [|tauto]. intros i. split; [discriminate|]. intros (t & ? & _); discriminate. }
  destruct (K _ _ Es) as (K1 & K2). destruct (K _ _ Ee) as (K3 & K4).
  repeat split; auto; try apply K1; try apply K3; try apply K2; try apply K4.
Qed.

Section Session.
Context {A : Type}.
Variable tables : nat -> option (list (sample A)).
Variable zone : option (Z -> res Z).
Notation step := (step tables zone).
Notation run := (run tables zone).

Lemma run_app ops1 : forall st ops2, run st (ops1 ++ ops2) =
  (fst (run st ops1) ++ fst (run (snd (run st ops1)) ops2), snd (run (snd (run st ops1)) ops2)).
Proof.
  induction ops1 as [|o ops1 IH]; intros st ops2; cbn [List.app SessionModel.run].
  - cbn. destruct (run st ops2); reflexivity.
  - destruct (step st o) as [r st'] eqn:E. rewrite IH.
    destruct (run st' ops1) as [l s'] eqn:E2. cbn [fst snd].
    destruct (run s' ops2) as [l2 s2] eqn:E3. reflexivity.
Qed.

Lemma run_ops ops : forall st, map fst (fst (run st ops)) = ops.
Proof.
  induction ops as [|o ops IH]; intros st; cbn [SessionModel.run]; [reflexivity|].
  destruct (step st o) as [r st']. specialize (IH st'). destruct (run st' ops) as [l s']. cbn in *. congruence.
Qed.

Lemma run_snoc st ops o : run st (ops ++ [o]) =
  (fst (run st ops) ++ [(o, fst (step (snd (run st ops)) o))], snd (step (snd (run st ops)) o)).
Proof.
  rewrite run_app. cbn [SessionModel.run].
  destruct (step (snd (run st ops)) o) as [r st']. reflexivity.
Qed.

Lemma in_force_snoc_keep l o r w : (forall s e, (o, r) <> (SetWindow s e, Done)) ->
  in_force zone l w -> @in_force A zone (l ++ [(o, r)]) w.
Proof.
  intros N [(-> & H)|(l1 & s & e & l2 & lo & -> & H & Z & K)].
  - left. split; auto. intros s e Hin. apply in_app_iff in Hin as [Hin|[Hin|[]]]; [exact (H _ _ Hin)|exact (N _ _ Hin)].
  - right. exists l1, s, e, (l2 ++ [(o, r)]), lo. split; [rewrite <- app_assoc; reflexivity|]. split; auto.
    intros s' e' Hin. apply in_app_iff in Hin as [Hin|[Hin|[]]]; [exact (H _ _ Hin)|exact (N _ _ Hin)].
Qed.

Lemma window_in_force ops : in_force zone (fst (run opened ops)) (se_window (snd (run opened ops))).
Proof.
  induction ops as [|o ops IH] using rev_ind.
  - left. split; [reflexivity|]. intros s e [].
  - rewrite run_snoc. cbn [fst snd]. set (st := snd (run opened ops)) in *. destruct o as [s e|k ss n c|h]; cbn [SessionModel.step].
    + destruct (set_window true zone s e) as [w|x] eqn:E; cbn [fst snd se_window].
      * apply set_window_asked in E as (lo & Hz & Hk). right.
        exists (fst (run opened ops)), s, e, [], lo. repeat split; auto; try apply Hk. 
      * apply in_force_snoc_keep; auto. intros s' e'; discriminate.
    + apply in_force_snoc_keep; auto. intros s' e'; discriminate.
    + destruct (nth_error (se_cursors st) h) as [cu|].
      * destruct (advance tables (se_window st) cu) as [r cu']. cbn [fst snd se_window].
        apply in_force_snoc_keep; auto. intros s' e'; discriminate.
      * apply in_force_snoc_keep; auto. intros s' e'; discriminate.
Qed.

(** ** Generators *)

Lemma firstn_repeat {B} (x : B) m : forall k, firstn m (repeat x (m + k)) = repeat x m.
Proof. induction m as [|m IH]; intros k; cbn; [reflexivity|]. f_equal. apply IH. Qed.

Lemma firstn_pad {B} (x : B) (l : list B) m k : firstn m (l ++ repeat x (m + k)) = firstn m (l ++ repeat x m).
Proof.
  rewrite !firstn_app. f_equal.
  replace (m + k) with ((m - length l) + (m - (m - length l) + k)) by lia. rewrite firstn_repeat.
  replace m with ((m - length l) + (m - (m - length l))) at 3 by lia. rewrite firstn_repeat. reflexivity.
Qed.

Lemma stream_cons (ch : chunk A) r e m : stream (ch :: r, e) (S m) = Got ch :: stream (r, e) m.
Proof.
  unfold stream. cbn [fst snd map List.app firstn]. f_equal. rewrite !app_assoc.
  replace (S m) with (m + 1) by lia. apply firstn_pad.
Qed.

Lemma stream_raise e m : @stream A ([], Some e) (S m) = Raised e :: stream ([], None) m.
Proof.
  unfold stream. cbn [fst snd map List.app firstn]. f_equal. replace (S m) with (m + 1) by lia.
  apply (firstn_pad Ended [] m 1).
Qed.

Lemma stream_end m : @stream A ([], None) (S m) = Ended :: stream ([], None) m.
Proof.
  unfold stream. cbn [fst snd map List.app firstn repeat]. reflexivity.
Qed.

Lemma gen_app_nil_l (g : gen (chunk A)) : gen_app ([], None) g = g.
Proof. destruct g; reflexivity. Qed.

Lemma gen_app_cons ch r e (g : gen (chunk A)) : gen_app (ch :: r, e) g = (ch :: fst (gen_app (r, e) g), snd (gen_app (r, e) g)).
Proof. destruct e; reflexivity. Qed.

(** One [next]: the sections it begins are read under the present window; the
    others are left for later. *)
Lemma resume_spec key w n c todo : forall now o now' todo',
  resume tables key w n c now todo = (o, (now', todo')) ->
  forall ws', length ws' = length todo' ->
  exists ws, length ws = length todo /\ (forall x, In x ws -> x = w \/ In x ws') /\
    forall m, stream (gen_app now (sections_under tables key n c ws todo)) (S m) =
              o :: stream (gen_app now' (sections_under tables key n c ws' todo')) m.
Proof.
  induction todo as [|s rest IH]; intros now o now' todo' H ws' Hlen.
  - destruct now as [[|ch r] [e|]]; cbn in H; injection H as <- <- <-; exists ws'; cbn in Hlen;
      destruct ws'; try discriminate Hlen; (split; [reflexivity|]); (split; [intros x []|]); intros m;
      cbn [sections_under].
    + apply stream_raise.
    + apply stream_end.
    + rewrite gen_app_cons. rewrite stream_cons. reflexivity.
    + rewrite gen_app_cons. rewrite stream_cons. reflexivity.
  - destruct now as [[|ch r] e].
    + destruct e as [e|].
      * cbn in H. injection H as <- <- <-. destruct ws'; try discriminate Hlen.
        exists (repeat w (S (length rest))). split; [apply repeat_length|].
        split; [intros x Hx; apply repeat_spec in Hx; auto|]. intros m. cbn [gen_app sections_under]. apply stream_raise.
      * cbn [resume] in H. destruct (begin_section tables key w s n c) as [[|ch r] [e|]] eqn:B.
        -- injection H as <- <- <-. destruct ws'; try discriminate Hlen.
           exists (repeat w (S (length rest))). split; [apply repeat_length|].
           split; [intros x Hx; apply repeat_spec in Hx; auto|]. intros m. cbn [repeat sections_under].
           rewrite gen_app_nil_l, B. cbn [gen_app]. apply stream_raise.
        -- destruct (IH _ _ _ _ H ws' Hlen) as (ws & Hl & Hin & HS). exists (w :: ws).
           split; [cbn; congruence|]. split; [intros x [<-|Hx]; auto|]. intros m. cbn [sections_under].
           rewrite gen_app_nil_l, B. apply HS.
        -- injection H as <- <- <-. exists (w :: ws'). split; [cbn; congruence|].
           split; [intros x [<-|Hx]; auto|]. intros m. cbn [sections_under].
           rewrite gen_app_nil_l, B, gen_app_cons, stream_cons. destruct (gen_app (r, Some e) (sections_under tables key n c ws' rest)); reflexivity.
        -- injection H as <- <- <-. exists (w :: ws'). split; [cbn; congruence|].
           split; [intros x [<-|Hx]; auto|]. intros m. cbn [sections_under].
           rewrite gen_app_nil_l, B, gen_app_cons, stream_cons. destruct (gen_app (r, None) (sections_under tables key n c ws' rest)); reflexivity.
    + cbn in H. injection H as <- <- <-. exists ws'. split; [exact Hlen|]. split; [auto|]. intros m.
      rewrite gen_app_cons, stream_cons. destruct (gen_app (r, e) (sections_under tables key n c ws' (s :: rest))); reflexivity.
Qed.

Lemma nth_replace_same {B} (l : list B) g x y : nth_error l g = Some y -> nth_error (replace l g x) g = Some x.
Proof. revert g; induction l as [|z l IH]; intros [|g] H; cbn in *; try discriminate; auto. Qed.

Lemma nth_replace_other {B} (l : list B) g h x : h <> g -> nth_error (replace l h x) g = nth_error l g.
Proof. revert g h; induction l as [|z l IH]; intros [|g] [|h] H; cbn; auto; try congruence. Qed.

(** Advancing other generators, asking for more, or setting the window leaves
    a generator as it is. *)
Lemma step_other st o g cu : nth_error (se_cursors st) g = Some cu -> o <> Next g ->
  nth_error (se_cursors (snd (step st o))) g = Some cu.
Proof.
  intros H N. destruct o as [s e|k ss n c|h]; cbn [SessionModel.step].
  - destruct (set_window true zone s e); cbn; exact H.
  - cbn. rewrite nth_error_app1; [exact H|]. apply nth_error_Some. congruence.
  - destruct (nth_error (se_cursors st) h) as [cu'|]; [|exact H].
    destruct (advance tables (se_window st) cu') as [r cu2]. cbn.
    rewrite nth_replace_other; [exact H|]. congruence.
Qed.

Lemma answers_app g (l1 l2 : trace A) : answers g (l1 ++ l2) = answers g l1 ++ answers g l2.
Proof.
  induction l1 as [|[o r] l1 IH]; cbn; [reflexivity|]. destruct o; auto. destruct (Nat.eqb g0 g); cbn; rewrite ?IH; auto.
Qed.

(** The windows at the times when [g] is advanced in a run from [st]. *)
Fixpoint windows_at (g : nat) (st : session A) (ops : list op) : list tf :=
  match ops with
  | [] => []
  | o :: rest =>
      let ws := windows_at g (snd (step st o)) rest in
      match o with Next h => if Nat.eqb h g then se_window st :: ws else ws | _ => ws end
  end.

Definition pending (cu : cursor A) (ws : list tf) : gen (chunk A) :=
  gen_app (cu_now cu) (sections_under tables (cu_key cu) (cu_look cu) (cu_size cu) ws (cu_todo cu)).

Lemma run_pending g ops : forall st cu d, nth_error (se_cursors st) g = Some cu ->
  exists ws, length ws = length (cu_todo cu) /\ (forall x, In x ws -> x = d \/ In x (windows_at g st ops)) /\
    answers g (fst (run st ops)) = stream (pending cu ws) (length (windows_at g st ops)).
Proof.
  induction ops as [|o ops IH]; intros st cu d H.
  - exists (repeat d (length (cu_todo cu))). split; [apply repeat_length|].
    split; [intros x Hx; apply repeat_spec in Hx; auto|]. reflexivity.
  - cbn [SessionModel.run windows_at]. destruct (step st o) as [r st'] eqn:E. cbn [snd].
    destruct (run st' ops) as [l st''] eqn:ER. cbn [fst].
    assert (HO : o <> Next g -> nth_error (se_cursors st') g = Some cu).
    { intros N. pose proof (step_other st o g cu H N) as K. rewrite E in K. exact K. }
    assert (Hrec : o <> Next g -> exists ws, length ws = length (cu_todo cu) /\
       (forall x, In x ws -> x = d \/ In x (windows_at g st' ops)) /\
       answers g l = stream (pending cu ws) (length (windows_at g st' ops))).
    { intros N. destruct (IH st' cu d (HO N)) as (ws & W1 & W2 & W3). rewrite ER in W3. eauto. }
    destruct o as [s e|k ss n c|h].
    + cbn [answers]. apply Hrec. discriminate.
    + cbn [answers]. apply Hrec. discriminate.
    + cbn [answers]. destruct (Nat.eqb h g) eqn:Eh.
      2:{ apply Hrec. intros [= ->]. rewrite Nat.eqb_refl in Eh. discriminate. }
      apply Nat.eqb_eq in Eh as ->. cbn [SessionModel.step] in E. rewrite H in E.
      unfold advance in E.
      destruct (resume tables (cu_key cu) (se_window st) (cu_look cu) (cu_size cu) (cu_now cu) (cu_todo cu))
        as [o2 [now' todo']] eqn:ERs. injection E as <- <-.
      set (cu' := mkCursor (cu_key cu) now' todo' (cu_look cu) (cu_size cu)) in *.
      assert (H' : nth_error (se_cursors (mkSession (se_window st) (replace (se_cursors st) g cu'))) g = Some cu').
      { cbn. eapply nth_replace_same; eauto. }
      destruct (IH _ cu' (se_window st) H') as (ws' & W1 & W2 & W3). rewrite ER in W3. cbn [fst] in W3.
      destruct (resume_spec _ _ _ _ _ _ _ _ _ ERs ws' W1) as (ws & V1 & V2 & V3).
      exists ws. split; [exact V1|]. split.
      { intros x Hx. right. destruct (V2 _ Hx) as [->|Hx']; [left; reflexivity|].
        destruct (W2 _ Hx') as [->|K]; [left; reflexivity|right; exact K]. }
      cbn [length]. unfold pending at 1. rewrite V3. f_equal. exact W3.
Qed.

Lemma windows_at_app g ops : forall st x, In x (windows_at g st ops) ->
  exists o1 o2, ops = o1 ++ Next g :: o2 /\ se_window (snd (run st o1)) = x.
Proof.
  induction ops as [|o ops IH]; intros st x H; [destruct H|]. cbn [windows_at] in H.
  assert (G : In x (windows_at g (snd (step st o)) ops) ->
    exists o1 o2, o :: ops = o1 ++ Next g :: o2 /\ se_window (snd (run st o1)) = x).
  { intros K. apply IH in K as (o1 & o2 & -> & E). exists (o :: o1), o2. split; [reflexivity|].
    cbn [SessionModel.run]. destruct (step st o) as [r st']. cbn [snd] in *. destruct (run st' o1). exact E. }
  destruct o as [s e|k ss n c|h]; auto. destruct (Nat.eqb h g) eqn:Eh; auto. destruct H as [<-|H]; auto.
  apply Nat.eqb_eq in Eh as ->. exists [], ops. split; reflexivity.
Qed.

Lemma windows_at_length g ops : forall st, length (windows_at g st ops) = length (filter (fun o => match o with Next h => Nat.eqb h g | _ => false end) ops).
Proof.
  induction ops as [|o ops IH]; intros st; cbn; [reflexivity|].
  destruct o as [s e|k ss n c|h]; auto. destruct (Nat.eqb h g); cbn; auto.
Qed.

Lemma answers_length g ops st : length (answers g (fst (run st ops))) = length (windows_at g st ops).
Proof.
  revert st. induction ops as [|o ops IH]; intros st; cbn; [reflexivity|].
  destruct (step st o) as [r st'] eqn:E. specialize (IH st'). cbn [snd].
  destruct (run st' ops) as [l s'] eqn:ER. cbn [fst answers] in *.
  destruct o as [s e|k ss n c|h]; auto. destruct (Nat.eqb h g); cbn; auto.
Qed.

Lemma opened_cursors ops : length (se_cursors (snd (run opened ops))) = loads ops.
Proof.
  assert (RL : forall B (l : list B) i x, length (replace l i x) = length l).
  { induction l as [|z l IH]; intros [|i] x; cbn; auto. }
  assert (G : forall st, length (se_cursors (snd (run st ops))) = length (se_cursors st) + loads ops).
  { induction ops as [|o ops IH]; intros st; cbn [SessionModel.run loads]; [cbn; lia|].
    destruct (step st o) as [r st'] eqn:E. specialize (IH st').
    destruct (run st' ops) as [l s'] eqn:ER. cbn [snd] in *. rewrite IH.
    destruct o as [s e|k ss n c|h]; cbn [SessionModel.step] in E.
    - destruct (set_window true zone s e); injection E as <- <-; cbn; lia.
    - injection E as <- <-. cbn [se_cursors]. rewrite app_length. cbn. lia.
    - destruct (nth_error (se_cursors st) h) as [cu|]; [|injection E as <- <-; lia].
      destruct (advance tables (se_window st) cu) as [r2 cu2]. injection E as <- <-. cbn [se_cursors]. rewrite RL. lia. }
  rewrite G. reflexivity.
Qed.

(** The state in which a generator has just been asked for. *)
Lemma asked_for pre key ss n c : forall st1, st1 = snd (run opened (pre ++ [Load key ss n c])) ->
  nth_error (se_cursors st1) (loads pre) = Some (mkCursor key ([], None) (default_sections ss) n c).
Proof.
  intros st1 ->. rewrite run_snoc. cbn [snd SessionModel.step se_cursors].
  rewrite nth_error_app2; rewrite opened_cursors; [|lia]. rewrite Nat.sub_diag. reflexivity.
Qed.

Lemma app_inj_len {B} (a : list B) : forall b c d, a ++ c = b ++ d -> length a = length b -> a = b /\ c = d.
Proof.
  induction a as [|x a IH]; intros [|y b] c d H L; try discriminate L; [auto|].
  cbn in H. injection H as -> H. destruct (IH _ _ _ H ltac:(cbn in L; lia)) as (-> & ->). auto.
Qed.

Lemma load_answers pre post key ss n c la lb :
  fst (run opened (pre ++ Load key ss n c :: post)) = la ++ (Load key ss n c, Done) :: lb -> length la = length pre ->
  let g := loads pre in
  answers g lb = [] \/
  exists ws, length ws = length (default_sections ss) /\
    Forall (used zone (la ++ [(Load key ss n c, Done)]) lb g) ws /\
    answers g lb = stream (sections_under tables key n c ws (default_sections ss)) (length (answers g lb)).
Proof.
  intros H Hla g.
  replace (pre ++ Load key ss n c :: post) with ((pre ++ [Load key ss n c]) ++ post) in H by (rewrite <- app_assoc; reflexivity).
  rewrite run_app in H. cbn [fst] in H.
  pose proof (run_snoc opened pre (Load key ss n c)) as HS.
  set (st1 := snd (run opened (pre ++ [Load key ss n c]))) in *.
  assert (HL : fst (run opened (pre ++ [Load key ss n c])) = la ++ [(Load key ss n c, Done)] /\ fst (run st1 post) = lb).
  { assert (Len : length (fst (run opened (pre ++ [Load key ss n c]))) = length (la ++ [(Load key ss n c, @Done A)])).
    { rewrite <- (map_length fst). rewrite run_ops. rewrite !app_length. cbn. lia. }
    replace (la ++ (Load key ss n c, Done) :: lb) with ((la ++ [(Load key ss n c, Done)]) ++ lb) in H by (rewrite <- app_assoc; reflexivity).
    apply app_inj_len; assumption. }
  destruct HL as (HL1 & HL2).
  pose proof (asked_for pre key ss n c st1 eq_refl) as Hc. fold g in Hc.
  assert (U : forall x, In x (windows_at g st1 post) -> used zone (la ++ [(Load key ss n c, Done)]) lb g x).
  { intros x Hx. apply windows_at_app in Hx as (o1 & o2 & Ep & Ex).
    rewrite <- HL2, Ep. rewrite run_app. cbn [fst].
    exists (fst (run st1 o1)). cbn [SessionModel.run].
    destruct (step (snd (run st1 o1)) (Next g)) as [r st2]. destruct (run st2 o2) as [l2 st3]. cbn [fst].
    exists r, l2. split; [reflexivity|]. rewrite <- HL1.
    pose proof (window_in_force ((pre ++ [Load key ss n c]) ++ o1)) as W. rewrite run_app in W. cbn [fst snd] in W.
    fold st1 in W. rewrite Ex in W. exact W. }
  pose proof (answers_length g post st1) as AL. rewrite HL2 in AL.
  destruct (windows_at g st1 post) as [|d l] eqn:EW.
  - left. cbn in AL. destruct (answers g lb); [reflexivity|discriminate].
  - right. destruct (run_pending g post st1 _ d Hc) as (ws & W1 & W2 & W3).
    exists ws. split; [exact W1|]. split.
    + apply Forall_forall. intros x Hx. apply U. rewrite <- EW. destruct (W2 _ Hx) as [->|K]; [rewrite EW; left; reflexivity|exact K].
    + rewrite AL. rewrite HL2 in W3. rewrite EW in W3. rewrite W3. unfold pending. cbn [cu_now cu_todo cu_key cu_look cu_size].
      rewrite gen_app_nil_l. reflexivity.
Qed.

Lemma sections_under_same key n c rows w ss : tables key = Some rows -> forall ws, length ws = length ss ->
  (forall x, In x ws -> x = w) -> sections_under tables key n c ws ss = hdf_load rows w ss n c.
Proof.
  intros T. induction ss as [|s ss IH]; intros [|v ws] L H; try discriminate L; [reflexivity|].
  cbn [sections_under hdf_load]. rewrite (H v (or_introl eq_refl)). unfold begin_section. rewrite T. f_equal.
  apply IH; [cbn in L; lia|]. intros x Hx. apply H. right. exact Hx.
Qed.

Lemma load_one_window pre post key ss n c la lb rows w :
  fst (run opened (pre ++ Load key ss n c :: post)) = la ++ (Load key ss n c, Done) :: lb -> length la = length pre ->
  tables key = Some rows ->
  (forall x, used zone (la ++ [(Load key ss n c, Done)]) lb (loads pre) x -> x = w) ->
  answers (loads pre) lb = stream (hdf_load rows w (default_sections ss) n c) (length (answers (loads pre) lb)).
Proof.
  intros H L T U. destruct (load_answers _ _ _ _ _ _ _ _ H L) as [E|(ws & W1 & W2 & W3)].
  - rewrite E. reflexivity.
  - rewrite W3 at 1. f_equal. apply sections_under_same; auto.
    intros x Hx. apply U. rewrite Forall_forall in W2. auto.
Qed.

(** Operations on other generators do not matter. *)
Lemma others_gen g : forall ops st st', se_window st = se_window st' ->
  nth_error (se_cursors st) g = nth_error (se_cursors st') g -> nth_error (se_cursors st) g <> None ->
  answers g (fst (run st ops)) = answers g (fst (run st' (filter (concerns g) ops))).
Proof.
  induction ops as [|o ops IH]; intros st st' W C N; [reflexivity|].
  cbn [SessionModel.run filter]. destruct o as [s e|k ss n c|h]; cbn [concerns].
  - cbn [SessionModel.run SessionModel.step]. destruct (set_window true zone s e) as [w|x].
    + specialize (IH (mkSession w (se_cursors st)) (mkSession w (se_cursors st')) eq_refl C N).
      destruct (run _ ops); destruct (run _ (filter _ ops)). exact IH.
    + specialize (IH st st' W C N). destruct (run st ops); destruct (run st' (filter _ ops)). exact IH.
  - cbn [SessionModel.step].
    assert (K : nth_error (se_cursors st ++ [mkCursor k ([], None) (default_sections ss) n c]) g = nth_error (se_cursors st) g).
    { apply nth_error_app1. apply nth_error_Some. exact N. }
    specialize (IH (mkSession (se_window st) (se_cursors st ++ [mkCursor k ([], None) (default_sections ss) n c])) st' W).
    cbn [se_cursors] in IH. rewrite K in IH. specialize (IH C N).
    destruct (run _ ops). exact IH.
  - destruct (Nat.eqb h g) eqn:Eh.
    + apply Nat.eqb_eq in Eh as ->. cbn [SessionModel.run SessionModel.step].
      rewrite <- C. destruct (nth_error (se_cursors st) g) as [cu|] eqn:Ec; [|congruence].
      rewrite <- W. destruct (advance tables (se_window st) cu) as [r cu'].
      specialize (IH (mkSession (se_window st) (replace (se_cursors st) g cu')) (mkSession (se_window st) (replace (se_cursors st') g cu')) eq_refl).
      cbn [se_cursors] in IH. rewrite !(nth_replace_same _ _ _ cu) in IH by congruence.
      specialize (IH eq_refl ltac:(discriminate)).
      destruct (run _ ops); destruct (run _ (filter _ ops)). cbn [fst answers] in *. rewrite Nat.eqb_refl. f_equal. exact IH.
    + cbn [SessionModel.step]. apply Nat.eqb_neq in Eh. destruct (nth_error (se_cursors st) h) as [cu|].
      * destruct (advance tables (se_window st) cu) as [r cu'].
        specialize (IH (mkSession (se_window st) (replace (se_cursors st) h cu')) st' W).
        cbn [se_cursors] in IH. rewrite nth_replace_other in IH by congruence. specialize (IH C N).
        destruct (run _ ops). cbn [fst answers] in *. apply Nat.eqb_neq in Eh. rewrite Eh. exact IH.
      * specialize (IH st st' W C N). destruct (run st ops). cbn [fst answers] in *. apply Nat.eqb_neq in Eh. rewrite Eh. exact IH.
Qed.
End Session.
