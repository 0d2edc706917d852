From Verif Require Import Base ActivationsModel ActivationsSpec.
Open Scope nat_scope.

(** ** Runs of the flags *)

Fixpoint runs (i : nat) (open : option nat) (flags : list bool) : list (nat * nat) :=
  match flags with
  | a :: (b :: _) as tl =>
      match a, b with
      | false, true => runs (S i) (Some (S i)) tl
      | true, false => match open with
                       | Some s => (s, S i) :: runs (S i) None tl
                       | None => runs (S i) None tl
                       end
      | _, _ => runs (S i) open tl
      end
  | _ => []
  end.

(** Interleaved positions above [lo]. *)
Fixpoint inter (lo : nat) (R : list (nat * nat)) : Prop :=
  match R with
  | [] => True
  | (s, e) :: r => lo < s /\ s < e /\ inter e r
  end.
Fixpoint top (lo : nat) (R : list (nat * nat)) : nat := match R with [] => lo | (_, e) :: r => top e r end.

Lemma inter_weaken lo lo' R : lo' <= lo -> inter lo R -> inter lo' R.
Proof. intros H. destruct R as [|[s e] r]; cbn; [trivial|]. intros (H1 & H2 & H3). repeat split; try assumption; lia. Qed.

Lemma top_weaken lo lo' R x : lo' <= lo -> top lo R < x -> top lo' R < x.
Proof. intros H. destruct R as [|[s e] r]; cbn; [lia|tauto]. Qed.

Definition tail_ok (hi : nat) (t : list nat) : Prop := match t with [] => True | [x] => hi < x | _ => False end.

Lemma tail_weaken lo lo' R t : lo' <= lo -> tail_ok (top lo R) t -> tail_ok (top lo' R) t.
Proof. intros H. destruct t as [|x [|y t]]; cbn; [trivial| |trivial]. apply top_weaken. exact H. Qed.

Lemma switches_step target i a b r : switches target i (a :: b :: r) =
  (if Bool.eqb a (negb target) && Bool.eqb b target then [S i] else []) ++ switches target (S i) (b :: r).
Proof. reflexivity. Qed.

Lemma runs_step i open a b r : runs i open (a :: b :: r) =
  match a, b with
  | false, true => runs (S i) (Some (S i)) (b :: r)
  | true, false => match open with Some s => (s, S i) :: runs (S i) None (b :: r) | None => runs (S i) None (b :: r) end
  | _, _ => runs (S i) open (b :: r)
  end.
Proof. destruct a, b; reflexivity. Qed.

(** How the events relate to the runs. *)
Lemma events_runs flags : forall i,
  match flags with
  | [] => True
  | false :: _ => exists t, switches true i flags = map fst (runs i None flags) ++ t /\ switches false i flags = map snd (runs i None flags) /\
                    inter i (runs i None flags) /\ tail_ok (top i (runs i None flags)) t
  | true :: _ =>
      (forall s, s <= i -> exists t, s :: switches true i flags = map fst (runs i (Some s) flags) ++ t /\ switches false i flags = map snd (runs i (Some s) flags) /\
         ((runs i (Some s) flags = [] /\ t = [s]) \/ (exists e r, runs i (Some s) flags = (s, e) :: r /\ i < e /\ inter e r /\ tail_ok (top e r) t))) /\
      ((switches true i flags = [] /\ switches false i flags = [] /\ runs i None flags = []) \/
       (exists x t, i < x /\ switches true i flags = map fst (runs i None flags) ++ t /\ switches false i flags = x :: map snd (runs i None flags) /\
         inter x (runs i None flags) /\ tail_ok (top x (runs i None flags)) t))
  end.
Proof.
  induction flags as [|a flags IH]; intros i; [exact I|]. destruct flags as [|b r].
  { destruct a; cbn.
    - split; [intros s Hs; exists [s]; auto|left; auto].
    - exists []. repeat split. }
  specialize (IH (S i)). destruct a, b.
  - destruct IH as [IH1 IH2]. split.
    + intros s Hs. destruct (IH1 s ltac:(lia)) as (t & E1 & E2 & D). exists t. rewrite !switches_step, runs_step. cbn [Bool.eqb negb andb app].
      split; [exact E1|]. split; [exact E2|]. destruct D as [D|(e & r' & D1 & D2 & D3)]; [left; exact D|right; exists e, r'; split; [exact D1|split; [lia|exact D3]]].
    + rewrite !switches_step, runs_step. cbn [Bool.eqb negb andb app]. destruct IH2 as [IH2|(x & t & H & D)]; [left; exact IH2|right; exists x, t; split; [lia|exact D]].
  - destruct IH as (t & E1 & E2 & D1 & D2). split.
    + intros s Hs. exists t. rewrite !switches_step, runs_step. cbn [Bool.eqb negb andb app map fst snd]. rewrite E1, E2. split; [reflexivity|]. split; [reflexivity|].
      right. exists (S i), (runs (S i) None (false :: r)). split; [reflexivity|]. split; [lia|]. split; assumption.
    + right. exists (S i), t. rewrite !switches_step, runs_step. cbn [Bool.eqb negb andb app]. rewrite E1, E2. split; [lia|]. split; [reflexivity|]. split; [reflexivity|]. split; assumption.
  - destruct IH as [IH1 _]. destruct (IH1 (S i) ltac:(lia)) as (t & E1 & E2 & D). exists t. rewrite !switches_step, runs_step. cbn [Bool.eqb negb andb app].
    split; [exact E1|]. split; [exact E2|]. destruct D as [[D1 D2]|(e & r' & D1 & D2 & D3 & D4)].
    + rewrite D1. cbn. split; [trivial|]. rewrite D2. cbn. lia.
    + rewrite D1. cbn [inter top]. split; [repeat split; [lia|lia|exact D3]|exact D4].
  - destruct IH as (t & E1 & E2 & D1 & D2). exists t. rewrite !switches_step, runs_step. cbn [Bool.eqb negb andb app].
    split; [exact E1|]. split; [exact E2|]. split; [eapply inter_weaken; [|exact D1]; lia|eapply tail_weaken; [|exact D2]; lia].
Qed.

Lemma last_opt_app1 {A} (l : list A) x : last_opt (l ++ [x]) = Some x.
Proof. induction l as [|a l IH]; [reflexivity|]. cbn [app]. destruct l as [|b l]; [reflexivity|]. exact IH. Qed.

Lemma top_last lo R : R <> [] -> last_opt (map snd R) = Some (top lo R).
Proof.
  revert lo. induction R as [|[s e] R IH]; intros lo H; [contradiction|]. destruct R as [|p R]; [reflexivity|].
  cbn [map snd top]. change (last_opt (map snd (p :: R)) = Some (top e (p :: R))). apply IH. discriminate.
Qed.

Lemma last_on_lt lo R : R <> [] -> inter lo R -> exists l, last_opt (map fst R) = Some l /\ l < top lo R.
Proof.
  revert lo. induction R as [|[s e] R IH]; intros lo H HI; [contradiction|]. destruct HI as (H1 & H2 & H3). destruct R as [|p R]; [exists s; cbn; split; [reflexivity|lia]|].
  destruct (IH e ltac:(discriminate) H3) as (l & E & L). exists l. split; [exact E|exact L].
Qed.

Definition flag_runs (flags : list bool) : list (nat * nat) := runs 0 None flags.

Lemma align_body lo R t : inter lo R -> tail_ok (top lo R) t ->
  match last_opt (map fst R ++ t), last_opt (map snd R) with
  | Some lon, Some loff => match (if loff <? lon then removelast (map fst R ++ t) else map fst R ++ t) with [] => None | ons => Some (ons, map snd R) end
  | _, _ => None
  end = match R with [] => None | p :: q => Some (map fst (p :: q), map snd (p :: q)) end.
Proof.
  intros HI HT. destruct R as [|p R].
  - cbn [map app]. destruct (last_opt t); reflexivity.
  - remember (p :: R) as Q eqn:EQ. assert (HQ : Q <> []) by (subst; discriminate). rewrite (top_last lo Q HQ). destruct (last_on_lt lo Q HQ HI) as (l & El & Ll).
    destruct t as [|x [|y t]]; [| |destruct HT].
    + rewrite app_nil_r, El. replace (top lo Q <? l) with false by (symmetry; apply Nat.ltb_ge; lia). subst Q. reflexivity.
    + rewrite last_opt_app1. cbn in HT. replace (top lo Q <? x) with true by (symmetry; apply Nat.ltb_lt; lia). rewrite removelast_last. subst Q. reflexivity.
Qed.

Lemma align_runs flags : align (switch_on_events flags) (switch_off_events flags) =
  match flag_runs flags with [] => None | p :: q => Some (map fst (p :: q), map snd (p :: q)) end.
Proof.
  unfold switch_on_events, switch_off_events, flag_runs. pose proof (events_runs flags 0) as H. destruct flags as [|[|] r]; [reflexivity| |].
  - destruct H as [_ [(E1 & E2 & E3)|(x & t & Hx & E1 & E2 & D1 & D2)]]; [rewrite E1, E2, E3; reflexivity|].
    rewrite E1, E2. remember (runs 0 None (true :: r)) as R eqn:ER. clear ER E1 E2. pose proof (align_body x R t D1 D2) as A. rewrite <- A. clear A.
    unfold align. destruct (map fst R ++ t) as [|on0 rest] eqn:EO.
    + assert (R = []) by (destruct R; [reflexivity|discriminate]). subst R. reflexivity.
    + assert (L : x < on0). { destruct R as [|[s e] R]; cbn in EO; [subst t; cbn in D2; destruct rest; [exact D2|destruct D2]|]. injection EO as <- _. cbn in D1. lia. }
      replace (x <? on0) with true by (symmetry; apply Nat.ltb_lt; exact L). destruct (last_opt (on0 :: rest)) as [n|]; [|reflexivity]. destruct (last_opt (map snd R)) as [m|]; [|reflexivity]. destruct (if m <? n then removelast (on0 :: rest) else on0 :: rest); reflexivity.
  - destruct H as (t & E1 & E2 & D1 & D2). rewrite E1, E2. remember (runs 0 None (false :: r)) as R eqn:ER. clear ER E1 E2. pose proof (align_body 0 R t D1 D2) as A. rewrite <- A. clear A.
    unfold align. destruct (map fst R ++ t) as [|on0 rest] eqn:EO; [reflexivity|].
    destruct (map snd R) as [|off0 offs] eqn:EF; [destruct (last_opt (on0 :: rest)); reflexivity|].
    assert (L : on0 < off0). { destruct R as [|[s e] R]; [discriminate|]. cbn in EO, EF. injection EO as <- _. injection EF as <- _. cbn in D1. lia. }
    replace (off0 <? on0) with false by (symmetry; apply Nat.ltb_ge; lia). destruct (last_opt (on0 :: rest)) as [n|]; [|reflexivity].
    destruct (last_opt (off0 :: offs)) as [m|]; [|reflexivity]. destruct (if m <? n then removelast (on0 :: rest) else on0 :: rest); reflexivity.
Qed.

(** ** What the runs are *)

Definition fl (F : list bool) (k : nat) (b : bool) : Prop := nth_error F k = Some b.

(** A maximal block of [true] with [false] on both sides. *)
Definition block (F : list bool) (r : nat * nat) : Prop :=
  0 < fst r /\ fst r < snd r /\ fl F (fst r - 1) false /\ (forall k, fst r <= k < snd r -> fl F k true) /\ fl F (snd r) false.

Fixpoint gaps_off (F : list bool) (l : list (nat * nat)) : Prop :=
  match l with
  | a :: (b :: _) as tl => snd a < fst b /\ (forall k, snd a <= k < fst b -> fl F k false) /\ gaps_off F tl
  | _ => True
  end.

Definition open_ok (F : list bool) (i : nat) (open : option nat) : Prop :=
  match open with
  | Some s => 0 < s /\ s <= i /\ fl F (s - 1) false /\ (forall k, s <= k <= i -> fl F k true)
  | None => True
  end.

Lemma skipn_cons {A} (F : list A) i a r : skipn i F = a :: r -> nth_error F i = Some a /\ skipn (S i) F = r.
Proof.
  revert i. induction F as [|x F IH]; intros [|i] H; try discriminate; cbn in H.
  - injection H as -> ->. auto.
  - apply IH in H. exact H.
Qed.

(** Where the first run can start. *)
Definition first_after (F : list bool) (i : nat) (open : option nat) (R : list (nat * nat)) : Prop :=
  match R with
  | [] => True
  | r :: _ => match open with
              | Some s => fst r = s
              | None => i < fst r
              end
  end.

Lemma runs_blocks F flags : forall i open, flags = skipn i F -> open_ok F i open -> (match flags with false :: _ => open = None | _ => True end) ->
  Forall (block F) (runs i open flags) /\ gaps_off F (runs i open flags) /\ first_after F i open (runs i open flags) /\
  (match flags, runs i open flags with
   | false :: _, r :: _ => forall k, i <= k < fst r -> fl F k false
   | _, _ => True end).
Proof.
  induction flags as [|a flags IH]; intros i open EF HO HN; [repeat split; constructor|]. destruct flags as [|b r]; [destruct a; repeat split; constructor|].
  symmetry in EF. destruct (skipn_cons _ _ _ _ EF) as [Fa EF']. destruct (skipn_cons _ _ _ _ EF') as [Fb _]. symmetry in EF'.
  destruct a, b; cbv beta match; rewrite runs_step.
  - specialize (IH (S i) open EF'). destruct IH as (I1 & I2 & I3 & I4).
    + destruct open as [s|]; [|exact I]. destruct HO as (O1 & O2 & O3 & O4). repeat split; try assumption; [lia|]. intros k Hk. destruct (Nat.eq_dec k (S i)) as [->|]; [exact Fb|apply O4; lia].
    + exact I.
    + split; [exact I1|]. split; [exact I2|]. split; [|exact I]. unfold first_after in *. destruct (runs (S i) open (true :: r)); [exact I|]. destruct open; [exact I3|lia].
  - specialize (IH (S i) None EF' I eq_refl). destruct IH as (I1 & I2 & I3 & I4). destruct open as [s|].
    + destruct HO as (O1 & O2 & O3 & O4). split; [|split; [|split; [reflexivity|exact I]]].
      * constructor; [|exact I1]. unfold block. cbn [fst snd]. repeat split; try assumption; [lia|]. intros k Hk. apply O4. lia.
      * destruct (runs (S i) None (false :: r)) as [|p q] eqn:ER; [exact I|]. cbn [gaps_off snd]. unfold first_after in I3. split; [lia|]. split; [exact I4|exact I2].
    + split; [exact I1|]. split; [exact I2|]. split; [|exact I]. unfold first_after in *. destruct (runs (S i) None (false :: r)); [exact I|lia].
  - subst open. specialize (IH (S i) (Some (S i)) EF'). destruct IH as (I1 & I2 & I3 & _).
    + cbn. rewrite Nat.sub_0_r. repeat split; try assumption; try lia. intros k Hk. replace k with (S i) by lia. exact Fb.
    + exact I.
    + split; [exact I1|]. split; [exact I2|]. unfold first_after in *. destruct (runs (S i) (Some (S i)) (true :: r)) as [|p q]; [split; exact I|]. split; [lia|].
      intros k Hk. replace k with i by lia. exact Fa.
  - subst open. specialize (IH (S i) None EF' I eq_refl). destruct IH as (I1 & I2 & I3 & I4). split; [exact I1|]. split; [exact I2|]. unfold first_after in *.
    destruct (runs (S i) None (false :: r)) as [|p q]; [split; exact I|]. split; [lia|]. intros k Hk. destruct (Nat.eq_dec k i) as [->|]; [exact Fa|]. apply I4. lia.
Qed.

Lemma runs_complete F flags : forall i open, flags = skipn i F -> open_ok F i open -> (match flags with false :: _ => open = None | _ => True end) ->
  forall k j, i <= k -> k < j -> fl F k true -> fl F j false -> (open <> None \/ exists p, i <= p < k /\ fl F p false) ->
  exists r, In r (runs i open flags) /\ fst r <= k < snd r.
Proof.
  induction flags as [|a flags IH]; intros i open EF HO HN k j Hik Hkj Hk Hj Hp.
  { assert (length F <= i). { assert (length (skipn i F) = 0) by (rewrite <- EF; reflexivity). rewrite skipn_length in H. lia. }
    unfold fl in Hk. assert (nth_error F k <> None) by congruence. apply nth_error_Some in H0. lia. }
  symmetry in EF. destruct (skipn_cons _ _ _ _ EF) as [Fa EF']. destruct flags as [|b r].
  { assert (length F <= S i). { assert (length (skipn (S i) F) = 0) by (rewrite EF'; reflexivity). rewrite skipn_length in H. lia. }
    unfold fl in Hj. assert (nth_error F j <> None) by congruence. apply nth_error_Some in H0. lia. }
  destruct (skipn_cons _ _ _ _ EF') as [Fb _]. symmetry in EF'. rewrite runs_step. destruct a, b.
  - assert (O' : open_ok F (S i) open).
    { destruct open as [s|]; [|exact I]. destruct HO as (O1 & O2 & O3 & O4). repeat split; try assumption; [lia|]. intros q Hq. destruct (Nat.eq_dec q (S i)) as [->|]; [exact Fb|apply O4; lia]. }
    destruct (Nat.eq_dec k i) as [->|Hne].
    + (* k = i: the run contains S i too unless j = S i *)
      destruct open as [s|].
      2:{ destruct Hp as [Hp|(p & Hp & _)]; [contradiction|lia]. }
      assert (j <> S i) by (intros ->; unfold fl in Hj; congruence).
      destruct (IH (S i) (Some s) EF' O' I (S i) j) as (q & Hq1 & Hq2); [lia|lia|exact Fb|exact Hj|left; discriminate|].
      exists q. split; [exact Hq1|]. split; [|lia].
      pose proof (runs_blocks F (true :: r) (S i) (Some s) EF' O' I) as (B1 & B2 & B3 & _).
      (* S i is on, and i is on: the block of S i contains i *)
      rewrite Forall_forall in B1. pose proof (B1 q Hq1) as (Q1 & Q2 & Q3 & Q4 & Q5).
      destruct (Nat.le_gt_cases (fst q) i) as [L|L]; [exact L|]. exfalso. assert (fst q = S i) by lia. rewrite H0 in Q3. cbn in Q3. rewrite Nat.sub_0_r in Q3. unfold fl in *. congruence.
    + destruct (IH (S i) open EF' O' I k j) as (q & Hq1 & Hq2); [lia|lia|exact Hk|exact Hj| |eauto].
      destruct Hp as [Hp|(p & Hp1 & Hp2)]; [left; exact Hp|right; exists p; split; [|exact Hp2]]. destruct (Nat.eq_dec p i) as [->|]; [unfold fl in Hp2; congruence|lia].
  - destruct open as [s|].
    + destruct (Nat.eq_dec k i) as [->|Hne].
      * exists (s, S i). split; [left; reflexivity|]. destruct HO as (O1 & O2 & _). cbn. lia.
      * destruct (IH (S i) None EF' I eq_refl k j) as (q & Hq1 & Hq2); [lia|lia|exact Hk|exact Hj| |exists q; split; [right; exact Hq1|exact Hq2]].
        right. exists (S i). split; [|exact Fb]. destruct (Nat.eq_dec k (S i)) as [->|]; [unfold fl in Hk; congruence|lia].
    + destruct (Nat.eq_dec k i) as [->|Hne]; [destruct Hp as [Hp|(p & Hp & _)]; [contradiction|lia]|].
      destruct (IH (S i) None EF' I eq_refl k j) as (q & Hq1 & Hq2); [lia|lia|exact Hk|exact Hj| |eauto].
      right. exists (S i). split; [|exact Fb]. destruct (Nat.eq_dec k (S i)) as [->|]; [unfold fl in Hk; congruence|lia].
  - subst open. assert (k <> i) by (intros ->; unfold fl in Hk; congruence).
    apply (IH (S i) (Some (S i)) EF') with (j := j); [|exact I|lia|exact Hkj|exact Hk|exact Hj|left; discriminate].
    cbn. rewrite Nat.sub_0_r. repeat split; try assumption; try lia. intros q Hq. replace q with (S i) by lia. exact Fb.
  - subst open. assert (k <> i) by (intros ->; unfold fl in Hk; congruence). assert (k <> S i) by (intros ->; unfold fl in Hk; congruence).
    apply (IH (S i) None EF' I eq_refl) with (j := j); [lia|exact Hkj|exact Hk|exact Hj|]. right. exists (S i). split; [lia|exact Fb].
Qed.

Lemma flag_runs_spec F : Forall (block F) (flag_runs F) /\ gaps_off F (flag_runs F) /\
  forall i k j, i < k < j -> fl F i false -> fl F k true -> fl F j false -> exists r, In r (flag_runs F) /\ fst r <= k < snd r.
Proof.
  unfold flag_runs. assert (HN : match F with false :: _ => @None nat = None | _ => True end) by (destruct F as [|[|] F]; trivial).
  destruct (runs_blocks F F 0 None eq_refl I HN) as (B1 & B2 & _). split; [exact B1|]. split; [exact B2|]. intros i k j Hk Hi Hkk Hj.
  apply (runs_complete F F 0 None eq_refl I HN k j); [lia|lia|exact Hkk|exact Hj|]. right. exists i. split; [lia|exact Hi].
Qed.

(** ** Bridging short off-periods *)

Definition tm (chunk : list sample) (i : nat) : Z := fst (nth i chunk (0%Z, None)).
Definition gap (chunk : list sample) (a b : nat * nat) : Z := (tm chunk (fst b) - tm chunk (snd a))%Z.

Fixpoint merge (chunk : list sample) (min_off : Z) (R : list (nat * nat)) : list (nat * nat) :=
  match R with
  | [] => []
  | r :: rs => match merge chunk min_off rs with
               | [] => [r]
               | b :: bs => if (min_off <=? gap chunk r b)%Z then r :: b :: bs else (fst r, snd b) :: bs
               end
  end.

Lemma merge_cons chunk m r rs : merge chunk m (r :: rs) = match merge chunk m rs with
               | [] => [r]
               | b :: bs => if (m <=? gap chunk r b)%Z then r :: b :: bs else (fst r, snd b) :: bs
               end.
Proof. reflexivity. Qed.

Lemma merge_first chunk m r rs : exists b bs, merge chunk m (r :: rs) = b :: bs /\ fst b = fst r.
Proof. rewrite merge_cons. destruct (merge chunk m rs) as [|b bs]; [eauto|]. destruct (m <=? gap chunk r b)%Z; eauto. Qed.

Lemma gap_first chunk a b c : fst b = fst c -> gap chunk a b = gap chunk a c.
Proof. unfold gap. intros ->. reflexivity. Qed.

(** Selecting by flags. *)
Fixpoint select {A} (cond : list bool) (l : list A) : list A :=
  match cond, l with
  | c :: cs, x :: xs => (if c then [x] else []) ++ select cs xs
  | _, _ => []
  end.

Fixpoint conds (chunk : list sample) (m : Z) (R : list (nat * nat)) : list bool :=
  match R with
  | a :: (b :: _) as tl => (m <=? gap chunk a b)%Z :: conds chunk m tl
  | _ => []
  end.

Lemma merge_select chunk m r rs : map fst (merge chunk m (r :: rs)) = fst r :: select (conds chunk m (r :: rs)) (map fst rs) /\
  map snd (merge chunk m (r :: rs)) = select (conds chunk m (r :: rs)) (map snd (r :: rs)) ++ [last (map snd (r :: rs)) 0].
Proof.
  revert r. induction rs as [|r' rs IH]; intros r; [split; reflexivity|].
  destruct (IH r') as [I1 I2]. destruct (merge_first chunk m r' rs) as (b & bs & E & Eb). rewrite merge_cons, E. rewrite E in I1, I2.
  change (conds chunk m (r :: r' :: rs)) with ((m <=? gap chunk r r')%Z :: conds chunk m (r' :: rs)).
  change (last (map snd (r :: r' :: rs)) 0) with (last (map snd (r' :: rs)) 0). cbn [map] in I1, I2.
  rewrite (gap_first chunk r b r' Eb). cbn [map select]. destruct (m <=? gap chunk r r')%Z; cbn [map fst snd app].
  - rewrite I1. cbn [map] in *. split; [reflexivity|]. rewrite I2. reflexivity.
  - injection I1 as _ I1. rewrite I1. split; [reflexivity|]. exact I2.
Qed.

Lemma mapM_app {A B} (f : A -> res B) l l' y y' : mapM f l = Ok y -> mapM f l' = Ok y' -> mapM f (l ++ l') = Ok (y ++ y').
Proof.
  revert y. induction l as [|x l IH]; intros y H1 H2; cbn in *; [injection H1 as <-; exact H2|].
  destruct (f x) as [z|]; cbn in *; [|discriminate]. destruct (mapM f l) as [zs|]; cbn in *; [|discriminate]. injection H1 as <-. rewrite (IH zs eq_refl H2). reflexivity.
Qed.

Lemma mapM_map {A B C} (f : B -> res C) (g : A -> B) l : mapM f (map g l) = mapM (fun x => f (g x)) l.
Proof. induction l as [|x l IH]; [reflexivity|]. cbn. rewrite IH. reflexivity. Qed.

Lemma mapM_eq {A B} (f g : A -> res B) l : (forall x, f x = g x) -> mapM f l = mapM g l.
Proof. intros H. induction l as [|x l IH]; [reflexivity|]. cbn. rewrite H, IH. reflexivity. Qed.

Lemma where_select {A} (cond : list bool) : forall (pre xs : list A), length cond <= length xs ->
  mapM (at_ (pre ++ xs)) (where_from (length pre) cond) = Ok (select cond xs).
Proof.
  induction cond as [|c cond IH]; intros pre xs H; [reflexivity|]. destruct xs as [|x xs]; [cbn in H; lia|]. cbn in H.
  specialize (IH (pre ++ [x]) xs ltac:(lia)). rewrite app_length in IH. cbn [length] in IH. rewrite <- app_assoc in IH. cbn [app] in IH.
  replace (length pre + 1) with (S (length pre)) in IH by lia. cbn [where_from select]. destruct c; cbn [app].
  - cbn [mapM]. unfold at_ at 1. rewrite nth_error_app2 by lia. rewrite Nat.sub_diag. cbn [nth_error bind]. rewrite IH. reflexivity.
  - exact IH.
Qed.

Lemma time_at_ok chunk i : i < length chunk -> time_at chunk i = Ok (tm chunk i).
Proof. intros H. unfold time_at, at_, tm. rewrite (nth_error_nth' chunk (0%Z, None) H). reflexivity. Qed.

Lemma times_ok chunk l : Forall (fun i => i < length chunk) l -> mapM (time_at chunk) l = Ok (map (tm chunk) l).
Proof. induction l as [|i l IH]; intros H; [reflexivity|]. inversion_clear H. cbn. rewrite time_at_ok by assumption. cbn. rewrite IH by assumption. reflexivity. Qed.

Lemma conds_gaps chunk m R : map (fun d => (m <=? d)%Z) (map (fun p => (fst p - snd p)%Z) (combine (map (tm chunk) (tl (map fst R))) (map (tm chunk) (removelast (map snd R))))) = conds chunk m R.
Proof.
  induction R as [|a R IH]; [reflexivity|]. destruct R as [|b R]; [reflexivity|].
  change (removelast (map snd (a :: b :: R))) with (snd a :: removelast (map snd (b :: R))). cbn [map tl combine]. cbn [map tl] in IH. rewrite IH. reflexivity.
Qed.

Lemma conds_len chunk m r rs : length (conds chunk m (r :: rs)) = length rs.
Proof. revert r. induction rs as [|b rs IH]; intros r; [reflexivity|]. cbn [length]. rewrite <- (IH b). reflexivity. Qed.

Lemma last_nth {A} (l : list A) d : last l d = nth (length l - 1) l d.
Proof. induction l as [|a l IH]; [reflexivity|]. destruct l as [|b l]; [reflexivity|]. change (last (a :: b :: l) d) with (last (b :: l) d). rewrite IH. cbn. rewrite Nat.sub_0_r. reflexivity. Qed.

Lemma removelast_Forall {A} (P : A -> Prop) l : Forall P l -> Forall P (removelast l).
Proof. induction l as [|a l IH]; intros H; [constructor|]. inversion_clear H. destruct l; [constructor|]. constructor; [assumption|]. apply IH. assumption. Qed.

Lemma smooth_merge chunk m r rs : let R := r :: rs in Forall (fun p => fst p < length chunk /\ snd p < length chunk) R -> (0 < m)%Z ->
  smooth chunk m (map fst R) (map snd R) = Ok (map fst (merge chunk m R), map snd (merge chunk m R)).
Proof.
  intros R HB Hm. unfold smooth. replace (0 <? m)%Z with true by (symmetry; apply Z.ltb_lt; exact Hm).
  assert (H1 : Forall (fun i => i < length chunk) (map fst R)) by (apply Forall_map; eapply Forall_impl; [|exact HB]; cbn; tauto).
  assert (H2 : Forall (fun i => i < length chunk) (map snd R)) by (apply Forall_map; eapply Forall_impl; [|exact HB]; cbn; tauto).
  rewrite (times_ok chunk (tl (map fst R))). 2:{ unfold R in *. cbn in *. inversion_clear H1. assumption. }
  cbn [bind]. rewrite (times_ok chunk (removelast (map snd R))) by (apply removelast_Forall; exact H2). cbn [bind].
  rewrite conds_gaps. destruct (merge_select chunk m r rs) as [M1 M2]. fold R in M1, M2. rewrite M1, M2.
  assert (HL : length (conds chunk m R) = length rs) by apply conds_len.
  erewrite mapM_app.
  2:{ apply (where_select (conds chunk m R) [] (map snd R)). rewrite map_length, HL. unfold R. cbn. lia. }
  2:{ cbn [mapM]. unfold at_. rewrite (nth_error_nth' _ 0) by (rewrite map_length; unfold R; cbn; lia). cbn [bind]. rewrite <- last_nth. reflexivity. }
  cbn [bind]. change (0 :: map S (where_from 0 (conds chunk m R))) with ([0] ++ map S (where_from 0 (conds chunk m R))).
  erewrite mapM_app.
  2:{ unfold R. reflexivity. }
  2:{ rewrite mapM_map. unfold R. cbn [map]. rewrite (mapM_eq _ (at_ (map fst rs))) by reflexivity. apply (where_select (conds chunk m R) [] (map fst rs)). rewrite map_length, HL. lia. }
  reflexivity.
Qed.

(** ** The bouts satisfy the specification *)

Section Bouts.
  Variables (chunk : list sample) (threshold : Z).
  Let F := when_on threshold chunk.

  Lemma fl_on k : fl F k true <-> on_at threshold chunk k.
  Proof.
    unfold fl, F, when_on, on_at. rewrite nth_error_map. destruct (nth_error chunk k) as [[t v]|]; cbn.
    - unfold is_on. cbn. destruct v as [v|]; split.
      + intros H. exists t, v. split; [reflexivity|]. injection H as H. lia.
      + intros (t' & v' & E & L). injection E as -> ->. f_equal. lia.
      + discriminate.
      + intros (t' & v' & E & _). discriminate.
    - split; [discriminate|]. intros (t & v & E & _). discriminate.
  Qed.
  Lemma fl_off k : fl F k false <-> off_at threshold chunk k.
  Proof.
    unfold off_at. setoid_rewrite <- fl_on. unfold fl, F, when_on. rewrite nth_error_map. destruct (nth_error chunk k) as [s|]; cbn.
    - split; [intros H; exists s; split; [reflexivity|congruence]|intros (s' & _ & N)]. destruct (is_on threshold s); [contradiction|reflexivity].
    - split; [discriminate|intros (s & E & _); discriminate].
  Qed.
  Lemma fl_not k : fl F k true -> fl F k false -> False.
  Proof. unfold fl. congruence. Qed.
  Lemma fl_lt k b : fl F k b -> k < length chunk.
  Proof. unfold fl. intros H. assert (nth_error F k <> None) by congruence. apply nth_error_Some in H0. unfold F, when_on in H0. rewrite map_length in H0. exact H0. Qed.
  Lemma lasts_tm i j d : lasts chunk i j d -> d = (tm chunk j - tm chunk i)%Z.
  Proof. intros (a & b & Ha & Hb & ->). unfold tm. rewrite (nth_error_nth _ _ _ Ha), (nth_error_nth _ _ _ Hb). reflexivity. Qed.
  Lemma tm_lasts i j : i < length chunk -> j < length chunk -> lasts chunk i j (tm chunk j - tm chunk i).
  Proof. intros Hi Hj. exists (nth i chunk (0%Z, None)), (nth j chunk (0%Z, None)). split; [apply nth_error_nth'; exact Hi|]. split; [apply nth_error_nth'; exact Hj|reflexivity]. Qed.

  Variable m : Z.

  Lemma gaps_tl a l : gaps_off F (a :: l) -> gaps_off F l.
  Proof. destruct l as [|b l]; [intros; exact I|]. intros (_ & _ & H). exact H. Qed.

  Lemma merge_spec R : Forall (block F) R -> gaps_off F R ->
    Forall (switched threshold chunk) (merge chunk m R) /\ Forall (bridged threshold chunk m) (merge chunk m R) /\ apart threshold chunk m (merge chunk m R) /\
    (forall r, In r R -> exists b, In b (merge chunk m R) /\ fst b <= fst r /\ snd r <= snd b).
  Proof.
    induction R as [|r rs IH]; intros HB HG.
    { repeat split; try constructor. intros r []. }
    pose proof (Forall_inv HB) as HR. apply Forall_inv_tail in HB. destruct (IH HB (gaps_tl _ _ HG)) as (I1 & I2 & I3 & I4). clear IH.
    assert (SW : switched threshold chunk r).
    { destruct r as [s e]. destruct HR as (R1 & R2 & R3 & R4 & R5). cbn in *. repeat split; try assumption; [apply fl_off; exact R3|apply fl_on; apply R4; lia|apply fl_on; apply R4; lia|apply fl_off; exact R5]. }
    assert (BR : bridged threshold chunk m r).
    { intros p q d H1 H2 H3 _ H4 _ _. exfalso. apply (fl_not p); [|apply fl_off; apply H4; lia]. destruct HR as (_ & _ & _ & R4 & _). apply R4. lia. }
    rewrite merge_cons. destruct rs as [|r' rs].
    { cbn. split; [constructor; [exact SW|constructor]|]. split; [constructor; [exact BR|constructor]|]. split; [exact I|]. intros x [<-|[]]. exists r. split; [left; reflexivity|lia]. }
    destruct HG as (G1 & G2 & HG). destruct (merge_first chunk m r' rs) as (b & bs & E & Eb). rewrite E in *.
    pose proof (Forall_inv HB) as HR'. rewrite <- Eb in G1, G2.
    destruct (m <=? gap chunk r b)%Z eqn:EG.
    - split; [constructor; assumption|]. split; [constructor; assumption|]. split.
      + split; [exact G1|]. split; [intros k Hk; apply fl_off; apply G2; exact Hk|]. split; [|exact I3].
        exists (gap chunk r b). split; [|lia]. apply tm_lasts.
        * destruct HR as (_ & _ & _ & _ & R5). eapply fl_lt. exact R5.
        * destruct HR' as (_ & Q & _ & R4 & _). rewrite Eb. eapply fl_lt. apply R4. lia.
      + intros x [<-|Hx]; [exists r; split; [left; reflexivity|lia]|]. destruct (I4 x Hx) as (y & Hy & L). exists y. split; [right; exact Hy|exact L].
    - pose proof (Forall_inv I1) as SB. pose proof (Forall_inv I2) as BB. apply Forall_inv_tail in I1. apply Forall_inv_tail in I2.
      destruct HR as (R1 & R2 & R3 & R4 & R5). destruct r as [s e], b as [s' e']. cbn [fst snd] in *. destruct SW as (W1 & W2 & W3 & W4 & W5 & W6). destruct SB as (V1 & V2 & V3 & V4 & V5 & V6).
      split; [|split; [|split]].
      + constructor; [|exact I1]. cbn. repeat split; try assumption. lia.
      + constructor; [|exact I2]. intros p q d H1 H2 H3 Hp Hoff Hq Hd. cbn [fst snd] in *.
        assert (P1 : e <= p). { destruct (Nat.le_gt_cases e p); [assumption|]. exfalso. apply (fl_not p); [apply R4; lia|apply fl_off; apply Hoff; lia]. }
        destruct (Nat.eq_dec p e) as [->|Hne].
        * assert (q = s').
          { destruct (Nat.lt_trichotomy q s') as [L|[L|L]]; [|exact L|].
            - exfalso. apply (fl_not q); [apply fl_on; exact Hq|apply G2; lia].
            - exfalso. apply (fl_not s'); [apply fl_on; exact V4|apply fl_off; apply Hoff; lia]. }
          subst q. apply lasts_tm in Hd. unfold gap in EG. cbn [fst snd] in EG. lia.
        * assert (s' < p). { destruct (Nat.lt_ge_cases s' p); [assumption|]. exfalso. apply (fl_not (p - 1)); [apply fl_on; exact Hp|apply G2; lia]. }
          apply (BB p q d); cbn; assumption || lia.
      + destruct bs as [|c bs]; [exact I|]. exact I3.
      + intros x [<-|Hx]; [exists (s, e'); split; [left; reflexivity|cbn; lia]|]. destruct (I4 x Hx) as (y & [<-|Hy] & L1 & L2).
        * exists (s, e'). split; [left; reflexivity|]. cbn in *. lia.
        * exists y. split; [right; exact Hy|]. split; assumption.
  Qed.

  Lemma bound_of_block R : Forall (block F) R -> Forall (fun p => fst p < length chunk /\ snd p < length chunk) R.
  Proof. apply Forall_impl. intros r (_ & R2 & _ & R4 & R5). split; [eapply fl_lt; apply R4; lia|eapply fl_lt; exact R5]. Qed.

  Lemma merge_low R : time_ordered chunk -> (m <= 0)%Z -> Forall (block F) R -> gaps_off F R -> merge chunk m R = R.
  Proof.
    intros HT Hm. induction R as [|r rs IH]; intros HB HG; [reflexivity|]. rewrite merge_cons, (IH (Forall_inv_tail HB) (gaps_tl _ _ HG)). destruct rs as [|b rs]; [reflexivity|].
    destruct HG as (G1 & _). pose proof (bound_of_block _ HB) as BD. pose proof (Forall_inv BD) as [_ B1]. pose proof (Forall_inv (Forall_inv_tail BD)) as [B2 _].
    assert (tm chunk (snd r) <= tm chunk (fst b))%Z. { apply (HT (snd r) (fst b)); [lia| |]; apply nth_error_nth'; assumption. }
    replace (m <=? gap chunk r b)%Z with true; [reflexivity|]. symmetry. apply Z.leb_le. unfold gap. lia.
  Qed.

  Lemma bouts : exists l, on_periods threshold chunk m l /\
    (time_ordered chunk -> (forall min_on border, get_activations chunk m min_on border threshold = do x <- mapM (activation chunk min_on border) l; Ok (concat x))) /\
    Forall (fun p => fst p < length chunk /\ snd p < length chunk) l.
  Proof.
    destruct (flag_runs_spec F) as (S1 & S2 & S3). exists (merge chunk m (flag_runs F)). destruct (merge_spec _ S1 S2) as (M1 & M2 & M3 & M4).
    split; [|split].
    - split; [exact M1|]. split; [exact M2|]. split; [exact M3|]. intros k i j Hk Hi Hkk Hj.
      destruct (S3 i k j Hk) as (r & Hr & L); [apply fl_off; exact Hi|apply fl_on; exact Hkk|apply fl_off; exact Hj|].
      destruct (M4 r Hr) as (b & Hb & L1 & L2). exists b. split; [exact Hb|lia].
    - intros HT min_on border. unfold get_activations. fold F. rewrite align_runs. destruct (flag_runs F) as [|r rs] eqn:ER; [reflexivity|].
      rewrite !map_length, Nat.eqb_refl. cbn [negb].
      assert (ES : smooth chunk m (map fst (r :: rs)) (map snd (r :: rs)) = Ok (map fst (merge chunk m (r :: rs)), map snd (merge chunk m (r :: rs)))).
      { destruct (Z.lt_ge_cases 0 m) as [L|L]; [apply smooth_merge; [apply bound_of_block; exact S1|exact L]|].
        rewrite (merge_low _ HT L S1 S2). unfold smooth. replace (0 <? m)%Z with false by (symmetry; apply Z.ltb_ge; exact L). reflexivity. }
      rewrite ES. cbn [bind]. rewrite !map_length, Nat.eqb_refl. cbn [negb].
      replace (combine (map fst (merge chunk m (r :: rs))) (map snd (merge chunk m (r :: rs)))) with (merge chunk m (r :: rs)); [reflexivity|].
      clear. induction (merge chunk m (r :: rs)) as [|[x y] l IH]; [reflexivity|]. cbn. rewrite <- IH. reflexivity.
    - apply Forall_forall. intros b Hb. rewrite Forall_forall in M1. specialize (M1 b Hb). destruct b as [s e]. destruct M1 as (_ & _ & _ & O1 & _ & O2). apply fl_on in O1. apply fl_off in O2.
      split; eapply fl_lt; eassumption.
  Qed.
End Bouts.

(** ** Reports *)

Lemma iloc_rows chunk border r rows : fst r < length chunk -> snd r < length chunk -> fst r < snd r ->
  (rows_of chunk border r rows <-> rows = iloc chunk (fst r - (1 + border)) (snd r + border)).
Proof.
  intros H1 H2 H3. unfold rows_of, iloc. set (n := fst r - (1 + border)). split.
  - intros (before & after & E & L1 & L2). rewrite E at 1. rewrite skipn_app, skipn_all2 by lia. rewrite L1, Nat.sub_diag. cbn [skipn app].
    rewrite firstn_app. assert (LE : length chunk = length before + length rows + length after) by (rewrite E, !app_length; lia).
    destruct (Nat.le_gt_cases (snd r + border) (length chunk)) as [L|L].
    + rewrite Nat.min_r in L2 by lia. rewrite <- L2, firstn_all, Nat.sub_diag. cbn [firstn]. rewrite app_nil_r. reflexivity.
    + rewrite Nat.min_l in L2 by lia. rewrite firstn_all2 by lia. replace after with (@nil sample) by (symmetry; apply length_zero_iff_nil; lia). rewrite firstn_nil, app_nil_r. reflexivity.
  - intros ->. exists (firstn n chunk), (skipn (snd r + border - n) (skipn n chunk)). split.
    + rewrite firstn_skipn, firstn_skipn. reflexivity.
    + rewrite !firstn_length, skipn_length. unfold n. lia.
Qed.

Lemma missing_row (a : list sample) : existsb missing a = false <-> forall s, In s a -> snd s <> None.
Proof.
  unfold missing. induction a as [|x a IH]; cbn; [split; [intros _ s []|reflexivity]|]. rewrite orb_false_iff, IH. split.
  - intros [H1 H2] s [<-|Hs]; [destruct (snd x); discriminate|auto].
  - intros H. split; [|intros s Hs; apply H; right; exact Hs]. specialize (H x (or_introl eq_refl)). destruct (snd x); [reflexivity|contradiction].
Qed.

Lemma report_ok chunk min_on border l : Forall (fun p => fst p < length chunk /\ snd p < length chunk) l -> Forall (fun p => fst p < snd p) l ->
  exists x, mapM (activation chunk min_on border) l = Ok x /\ report chunk min_on border l (concat x).
Proof.
  induction l as [|r l IH]; intros HB HL; [exists []; split; [reflexivity|constructor]|].
  pose proof (Forall_inv HB) as [B1 B2]. pose proof (Forall_inv HL) as B3. cbn beta in B3. destruct (IH (Forall_inv_tail HB) (Forall_inv_tail HL)) as (x & E & HR). cbn [mapM]. rewrite E.
  unfold activation. destruct r as [s e]. cbn [fst snd] in *. rewrite !time_at_ok by assumption. cbn [bind].
  destruct (tm chunk e - tm chunk s <? min_on)%Z eqn:ED.
  - exists ([] :: x). split; [reflexivity|]. apply report_no; [|exact HR]. intros rows (_ & (d & Hd & L) & _). cbn in Hd. apply lasts_tm in Hd. lia.
  - set (a := iloc chunk (s - S border) (e + border)).
    assert (HA : forall rows, rows_of chunk border (s, e) rows <-> rows = a) by (intros rows; apply (iloc_rows chunk border (s, e) rows); assumption).
    change (1 + border) with (S border). fold a.
    destruct (existsb missing a) eqn:EX.
    + exists ([] :: x). split; [reflexivity|]. apply report_no; [|exact HR]. intros rows (H1 & _ & H2). apply HA in H1. subst rows. apply missing_row in H2. congruence.
    + exists ([a] :: x). split; [reflexivity|]. apply (report_yes _ _ _ (s, e) l a (concat x)); [|exact HR]. split; [apply HA; reflexivity|]. split; [|apply missing_row; exact EX].
      exists (tm chunk e - tm chunk s)%Z. split; [apply tm_lasts; assumption|lia].
Qed.

Lemma activations_thm chunk threshold min_off min_on border : time_ordered chunk ->
  exists l out, get_activations chunk min_off min_on border threshold = Ok out /\ on_periods threshold chunk min_off l /\ report chunk min_on border l out.
Proof.
  intros HT. destruct (bouts chunk threshold min_off) as (l & HP & HG & HB). exists l. specialize (HG HT min_on border). pose proof HP as (M1 & _).
  assert (HL : Forall (fun p : nat * nat => fst p < snd p) l) by (eapply Forall_impl; [|exact M1]; intros [s e] (_ & H & _); exact H).
  destruct (report_ok chunk min_on border l HB HL) as (x & E & HR). exists (concat x). rewrite HG, E. split; [reflexivity|]. split; assumption.
Qed.

Lemma runs_exact chunk threshold r : In r (flag_runs (when_on threshold chunk)) <-> maximal_run threshold chunk r.
Proof.
  set (F := when_on threshold chunk). destruct (flag_runs_spec F) as (S1 & S2 & S3). rewrite Forall_forall in S1. split.
  - intros H. destruct (S1 r H) as (R1 & R2 & R3 & R4 & R5). repeat split; try assumption; [apply fl_off; exact R3|intros k Hk; apply fl_on; apply R4; exact Hk|apply fl_off; exact R5].
  - intros (R1 & R2 & R3 & R4 & R5). apply fl_off in R3, R5. assert (R4' : forall k, fst r <= k < snd r -> fl F k true) by (intros k Hk; apply fl_on; apply R4; exact Hk).
    destruct (S3 (fst r - 1) (fst r) (snd r) ltac:(lia) R3 (R4' (fst r) ltac:(lia)) R5) as (q & Hq & L). destruct (S1 q Hq) as (Q1 & Q2 & Q3 & Q4 & Q5).
    assert (fst q = fst r). { destruct (Nat.eq_dec (fst q) (fst r)) as [|N]; [assumption|]. exfalso. apply (fl_not chunk threshold (fst r - 1)); [apply Q4; lia|exact R3]. }
    assert (snd q = snd r).
    { destruct (Nat.lt_trichotomy (snd q) (snd r)) as [N|[N|N]]; [|exact N|].
      - exfalso. apply (fl_not chunk threshold (snd q)); [apply R4'; lia|exact Q5].
      - exfalso. apply (fl_not chunk threshold (snd r)); [apply Q4; lia|exact R5]. }
    destruct q, r. cbn in *. subst. exact Hq.
Qed.

Lemma exact_thm chunk threshold min_off min_on border : time_ordered chunk -> (min_off <= 0)%Z ->
  exists l out, get_activations chunk min_off min_on border threshold = Ok out /\
    (forall r, In r l <-> maximal_run threshold chunk r) /\ apart threshold chunk min_off l /\ report chunk min_on border l out.
Proof.
  intros HT Hm. set (F := when_on threshold chunk). destruct (flag_runs_spec F) as (S1 & S2 & S3). exists (flag_runs F).
  pose proof (merge_low chunk threshold min_off (flag_runs F) HT Hm S1 S2) as EM. destruct (merge_spec chunk threshold min_off _ S1 S2) as (M1 & M2 & M3 & M4). rewrite EM in *.
  assert (HL : Forall (fun p : nat * nat => fst p < snd p) (flag_runs F)) by (eapply Forall_impl; [|exact S1]; intros r (_ & H & _); exact H).
  destruct (report_ok chunk min_on border _ (bound_of_block chunk threshold _ S1) HL) as (x & E & HR). exists (concat x).
  split; [|split; [apply runs_exact|split; assumption]].
  unfold get_activations. fold F. rewrite align_runs. destruct (flag_runs F) as [|r rs] eqn:ER; [cbn in E; injection E as <-; reflexivity|].
  rewrite !map_length, Nat.eqb_refl. cbn [negb]. unfold smooth. replace (0 <? min_off)%Z with false by (symmetry; apply Z.ltb_ge; exact Hm). cbn [bind].
  rewrite !map_length, Nat.eqb_refl. cbn [negb].
  replace (combine (map fst (r :: rs)) (map snd (r :: rs))) with (r :: rs); [rewrite E; reflexivity|].
  clear. induction (r :: rs) as [|[x y] l IH]; [reflexivity|]. cbn. rewrite <- IH. reflexivity.
Qed.

Lemma iloc_split (chunk : list sample) b s e : b <= s -> s <= e -> skipn b chunk = firstn (s - b) (skipn b chunk) ++ iloc chunk s e ++ skipn e chunk.
Proof.
  intros H1 H2. unfold iloc. rewrite <- (firstn_skipn (s - b) (skipn b chunk)) at 1. f_equal.
  assert (A : skipn (s - b) (skipn b chunk) = skipn s chunk). { replace s with (b + (s - b)) at 2 by lia. generalize (s - b) as n. clear. intros n. revert chunk. induction b as [|b IH]; intros chunk; [reflexivity|]. destruct chunk; [destruct n; reflexivity|]. apply IH. }
  rewrite A. rewrite <- (firstn_skipn (e - s) (skipn s chunk)) at 1. f_equal.
  replace e with (s + (e - s)) at 2 by lia. generalize (e - s) as n. clear. intros n. revert chunk. induction s as [|s IH]; intros chunk; [reflexivity|]. destruct chunk; [destruct n; reflexivity|]. apply IH.
Qed.

Fixpoint from_base (b : nat) (l : list (nat * nat)) : Prop :=
  match l with [] => True | r :: l => b <= fst r - 1 /\ fst r < snd r /\ from_base (snd r) l end.

Lemma from_base_weaken b b' l : b' <= b -> from_base b l -> from_base b' l.
Proof. destruct l; cbn; [trivial|]. intros H (H1 & H2 & H3). repeat split; try assumption. lia. Qed.

Lemma report_slices chunk min_on l out : report chunk min_on 0 l out -> Forall (fun p => fst p < length chunk /\ snd p < length chunk) l ->
  forall b, from_base b l -> slices (skipn b chunk) out.
Proof.
  intros HR. induction HR as [|r l rows out HP HR IH|r l out HN HR IH]; intros HB b HF; [constructor| |].
  - destruct HF as (F1 & F2 & F3). destruct (Forall_inv HB) as [B1 B2]. apply Forall_inv_tail in HB. destruct HP as (HP & _). apply iloc_rows in HP; try assumption. subst rows.
    change (1 + 0) with 1. replace (snd r + 0) with (snd r) by lia. rewrite (iloc_split chunk b (fst r - 1) (snd r) F1 ltac:(lia)). apply slices_cons. apply IH; assumption.
  - destruct HF as (F1 & F2 & F3). apply Forall_inv_tail in HB. apply IH; [exact HB|]. eapply from_base_weaken; [|exact F3]. lia.
Qed.

Lemma apart_base threshold chunk m l b : Forall (switched threshold chunk) l -> apart threshold chunk m l -> (match l with [] => True | r :: _ => b <= fst r - 1 end) -> from_base b l.
Proof.
  revert b. induction l as [|r l IH]; intros b HS HA HF; [exact I|]. pose proof (Forall_inv HS) as S1. apply Forall_inv_tail in HS. destruct r as [s e]. destruct S1 as (S1 & S2 & _). cbn in *.
  split; [exact HF|]. split; [exact S2|]. destruct l as [|r' l]; [exact I|]. destruct HA as (A1 & _ & _ & A2). apply IH; [exact HS|exact A2|]. lia.
Qed.

Lemma slices_thm chunk threshold min_off min_on out : time_ordered chunk -> get_activations chunk min_off min_on 0 threshold = Ok out -> slices chunk out.
Proof.
  intros HT HG. destruct (bouts chunk threshold min_off) as (l & HP & HA & HB). specialize (HA HT min_on 0). destruct HP as (M1 & M2 & M3 & M4).
  assert (HL : Forall (fun p : nat * nat => fst p < snd p) l) by (eapply Forall_impl; [|exact M1]; intros [s e] (_ & H & _); exact H).
  destruct (report_ok chunk min_on 0 l HB HL) as (x & E & HR). rewrite HA, E in HG. injection HG as <-.
  apply (report_slices chunk min_on l _ HR HB 0). eapply apart_base; [exact M1|exact M3|]. destruct l; [trivial|lia].
Qed.
