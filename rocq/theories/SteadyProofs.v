From Verif Require Import Base SteadyModel SteadySpec.
From Coq Require Import QArith Qabs Lqa.
Open Scope nat_scope.

Lemma map2_len f a b : length a = length b -> length (map2 f a b) = length a.
Proof. revert b. induction a as [|x a IH]; intros [|y b] H; cbn in *; try lia. rewrite IH; lia. Qed.
Lemma map2_nth f a b i : length a = length b -> nth_error (map2 f a b) i = match nth_error a i, nth_error b i with Some x, Some y => Some (f x y) | _, _ => None end.
Proof. revert b i. induction a as [|x a IH]; intros [|y b] [|i] H; cbn in *; try lia; try reflexivity. apply IH. lia. Qed.

Lemma any_above_spec level v : any_above level v = true <-> exceeds level v.
Proof.
  unfold any_above, exceeds. rewrite existsb_exists. split.
  - intros (x & Hx & E). apply In_nth_error in Hx. destruct Hx as [i Hi]. exists i, x. split; [exact Hi|]. apply negb_true_iff in E. apply Qnot_le_lt. intros L. apply Qle_bool_iff in L. congruence.
  - intros (i & x & Hi & L). exists x. split; [eapply nth_error_In; exact Hi|]. apply negb_true_iff. destruct (Qle_bool x level) eqn:E; [|reflexivity]. apply Qle_bool_iff in E. lra.
Qed.

Lemma any_above_abs level v : any_above level (vabs v) = true <-> exceeds_abs level v.
Proof.
  rewrite any_above_spec. unfold exceeds, exceeds_abs, vabs. split.
  - intros (i & x & Hi & L). rewrite nth_error_map in Hi. destruct (nth_error v i) as [y|] eqn:E; [|discriminate]. injection Hi as <-. exists i, y. auto.
  - intros (i & x & Hi & L). exists i, (Qabs x). rewrite nth_error_map, Hi. auto.
Qed.

Lemma jump_spec th p q : length p = length q -> any_above th (vabs (vsub q p)) = true <-> jump th p q.
Proof.
  intros H. rewrite any_above_abs. unfold exceeds_abs, jump, vsub. split.
  - intros (i & x & Hi & L). rewrite map2_nth in Hi by congruence. destruct (nth_error q i) as [y|] eqn:E1; [|discriminate]. destruct (nth_error p i) as [z|] eqn:E2; [|discriminate]. injection Hi as <-. exists i, z, y. auto.
  - intros (i & x & y & H1 & H2 & L). exists i, (y - x)%Q. rewrite map2_nth, H1, H2 by congruence. auto.
Qed.

Lemma last_opt_snoc {A} (l : list A) x : last_opt (l ++ [x]) = Some x.
Proof. induction l as [|a l IH]; [reflexivity|]. cbn [app]. destruct l as [|b l]; [reflexivity|]. exact IH. Qed.
Lemma end_of_snoc p l r : end_of p (l ++ [r]) = snd r.
Proof. unfold end_of. rewrite last_opt_snoc. reflexivity. Qed.
Lemma end_of_app p a b : end_of p (a ++ b) = end_of (end_of p a) b.
Proof.
  destruct b as [|x b] using rev_ind; [rewrite app_nil_r; reflexivity|]. rewrite app_assoc, !end_of_snoc. reflexivity.
Qed.

Lemma all_jump_snoc th p l r : all_jump th p (l ++ [r]) <-> all_jump th p l /\ jump th (end_of p l) (snd r).
Proof.
  revert p. induction l as [|x l IH]; intros p; cbn [app all_jump]; [cbn; tauto|]. rewrite IH.
  replace (end_of p (x :: l)) with (end_of (snd x) l) by (change (x :: l) with ([x] ++ l); rewrite end_of_app; reflexivity). tauto.
Qed.
Lemma all_steady_snoc th p l r : all_steady th p (l ++ [r]) <-> all_steady th p l /\ ~ jump th (end_of p l) (snd r).
Proof.
  revert p. induction l as [|x l IH]; intros p; cbn [app all_steady]; [cbn; tauto|]. rewrite IH.
  replace (end_of p (x :: l)) with (end_of (snd x) l) by (change (x :: l) with ([x] ++ l); rewrite end_of_app; reflexivity). tauto.
Qed.

Lemma states_last th p L C : states_ok th p (L ++ [C]) -> state_ok th (end_of p (flat_map readings L)) C.
Proof.
  revert p. induction L as [|s L IH]; intros p; cbn [app states_ok flat_map]; [intros (H & _); exact H|]. intros (_ & _ & _ & H). rewrite end_of_app. apply IH. exact H.
Qed.
Lemma states_replace th p L C D : states_ok th p (L ++ [C]) -> state_ok th (end_of p (flat_map readings L)) D -> (changing C <> [] -> changing D <> []) -> states_ok th p (L ++ [D]).
Proof.
  intros H HD HC. revert p H HD. induction L as [|s L IH]; intros p; cbn [app states_ok flat_map].
  - intros _ HD. split; [exact HD|]. split; [intros X; contradiction|]. split; [constructor|exact I].
  - intros (H1 & H2 & H3 & H4) HD. rewrite end_of_app in HD. split; [exact H1|]. split; [intros _; apply H2; destruct L; discriminate|]. split; [|apply IH; assumption].
    apply Forall_app in H3. destruct H3 as [H3 H5]. apply Forall_app. split; [exact H3|]. inversion_clear H5. constructor; [auto|constructor].
Qed.
Lemma states_append th p L C D : states_ok th p (L ++ [C]) -> settled C <> [] -> state_ok th (end_of p (flat_map readings (L ++ [C]))) D -> changing D <> [] -> states_ok th p ((L ++ [C]) ++ [D]).
Proof.
  intros H HS HD HC. revert p H HD. induction L as [|s L IH]; intros p; cbn [app states_ok flat_map].
  - rewrite app_nil_r. intros (H1 & _) HD. split; [exact H1|]. split; [intros _; exact HS|]. split; [constructor; [exact HC|constructor]|]. split; [exact HD|]. split; [intros X; contradiction|]. split; [constructor|exact I].
  - intros (H1 & H2 & H3 & H4) HD. rewrite end_of_app in HD. split; [exact H1|]. split; [intros _; apply H2; destruct L; discriminate|]. split; [apply Forall_app; split; [exact H3|constructor; [exact HC|constructor]]|apply IH; assumption].
Qed.

Section Run.
  Variables (cols : nat) (threshold noise : Q).
  Hypothesis cols2 : cols <= 2.
  Hypothesis noise0 : (0 <= noise)%Q.
  Let zeros := repeat 0%Q cols.

  Definition wide (r : row) : Prop := length (snd r) = cols.
  Definition pt (x : Z * vec * vec) : Z * vec := fst x.
  Definition ps (x : Z * vec * vec) : Z * vec := (fst (fst x), snd x).
  Definition big (x : Z * vec * vec) : Prop := exceeds_abs noise (snd (fst x)).

  Record INV (s : st) (done : list row) (L : list state) (C : state) (levels : list vec) (X : list (Z * vec * vec)) : Prop := {
    v_done : flat_map readings (L ++ [C]) = done;
    v_ne : Forall (fun s => readings s <> []) (L ++ [C]);
    v_ok : states_ok threshold zeros (L ++ [C]);
    v_prev : s_prev s = end_of zeros done /\ length (s_prev s) = cols;
    v_ongoing : s_ongoing s = true <-> settled C = [];
    v_n : s_n s = length (level_readings C);
    v_est : mean_level cols (level_readings C) (s_est s);
    v_levels : Forall2 (fun s lev => mean_level cols (level_readings s) lev) L levels;
    v_last : s_last s = last levels zeros;
    v_time : s_time s = start_of C;
    v_sel : selected big (changes zeros (combine (map start_of L) levels)) X;
    v_trans : s_trans s = map pt X;
    v_steady : s_steady s = map ps X
  }.

  Lemma selected_snoc {A} (P : A -> Prop) l X x : selected P l X -> (P x -> selected P (l ++ [x]) (X ++ [x])) /\ (~ P x -> selected P (l ++ [x]) X).
  Proof.
    induction 1 as [|y l out Hy HS IH|y l out Hy HS IH]; cbn [app]; split; intros H.
    - apply sel_yes; [exact H|constructor].
    - apply sel_no; [exact H|constructor].
    - apply sel_yes; [exact Hy|]. apply IH. exact H.
    - apply sel_yes; [exact Hy|]. apply IH. exact H.
    - apply sel_no; [exact Hy|]. apply IH. exact H.
    - apply sel_no; [exact Hy|]. apply IH. exact H.
  Qed.

  Lemma changes_snoc before l t lev : changes before (l ++ [(t, lev)]) = changes before l ++ [(t, vsub lev (last (map snd l) before), lev)].
  Proof.
    revert before. induction l as [|[t' lev'] l IH]; intros before; [reflexivity|]. cbn [app changes map snd]. rewrite IH. cbn [app]. do 3 f_equal. f_equal. f_equal.
    destruct l as [|[a b] l]; [reflexivity|]. cbn [map snd]. generalize (map snd l) as q. clear. intros q. revert b. induction q as [|x q IH]; intros b; [reflexivity|]. exact (IH x).
  Qed.

  Lemma combine_snoc {A B} (a : list A) (b : list B) x y : length a = length b -> combine (a ++ [x]) (b ++ [y]) = combine a b ++ [(x, y)].
  Proof. revert b. induction a as [|u a IH]; intros [|w b] H; cbn in *; try lia; [reflexivity|]. rewrite IH by lia. reflexivity. Qed.
  Lemma combine_snd {A B} (a : list A) (b : list B) : length a = length b -> map snd (combine a b) = b.
  Proof. revert b. induction a as [|u a IH]; intros [|w b] H; cbn in *; try lia; [reflexivity|]. rewrite IH by lia. reflexivity. Qed.
  Lemma F2len {A B} (R : A -> B -> Prop) l l' : Forall2 R l l' -> length l = length l'.
  Proof. induction 1; cbn; congruence. Qed.

  (** Closing the current state: what [record_edge] stores. *)
  Lemma close s done L C levels X : INV s done L C levels X ->
    exists X', selected big (changes zeros (combine (map start_of (L ++ [C])) (levels ++ [s_est s]))) X' /\
      s_trans (record_edge noise s) = map pt X' /\ s_steady (record_edge noise s) = map ps X' /\
      Forall2 (fun s lev => mean_level cols (level_readings s) lev) (L ++ [C]) (levels ++ [s_est s]) /\
      s_est (record_edge noise s) = s_est s /\ s_prev (record_edge noise s) = s_prev s /\ s_ongoing (record_edge noise s) = s_ongoing s /\ s_n (record_edge noise s) = s_n s.
  Proof.
    intros [I1 I2 I3 I4 I5 I6 I7 I8 I9 I10 I11 I12 I13]. assert (HL := F2len _ _ _ I8).
    set (x := (start_of C, vsub (s_est s) (s_last s), s_est s)).
    assert (EC : changes zeros (combine (map start_of (L ++ [C])) (levels ++ [s_est s])) = changes zeros (combine (map start_of L) levels) ++ [x]).
    { rewrite map_app. cbn [map]. rewrite combine_snoc by (rewrite map_length; exact HL). rewrite changes_snoc. rewrite combine_snd by (rewrite map_length; exact HL). unfold x. rewrite I9. reflexivity. }
    rewrite EC. destruct (selected_snoc big _ _ x I11) as [S1 S2].
    assert (B : big x <-> any_above noise (vabs (vsub (s_est s) (s_last s))) = true) by (unfold big, x; cbn [fst snd]; rewrite any_above_abs; reflexivity).
    assert (F2 : Forall2 (fun s lev => mean_level cols (level_readings s) lev) (L ++ [C]) (levels ++ [s_est s])) by (apply Forall2_app; [exact I8|constructor; [exact I7|constructor]]).
    unfold record_edge. destruct (any_above noise (vabs (vsub (s_est s) (s_last s)))) eqn:E.
    - exists (X ++ [x]). split; [apply S1; apply B; reflexivity|]. cbn. rewrite !map_app, I12, I13, I10. cbn. auto 10.
    - exists X. split; [apply S2; intros H; apply B in H; discriminate|]. auto 10.
  Qed.

  Lemma column_snoc i l r : column i (l ++ [r]) = column i l ++ [nth i (snd r) 0%Q].
  Proof. unfold column. rewrite map_app. reflexivity. Qed.
  Lemma sumQ_snoc l x : (sumQ (l ++ [x]) == sumQ l + x)%Q.
  Proof. induction l as [|y l IH]; cbn; [lra|]. unfold sumQ in IH. rewrite IH. lra. Qed.

  Lemma frac_ok (N S e m : Q) : (0 < N + 1)%Q -> (N * e == S)%Q -> ((N + 1) * ((N * e + m) / (N + 1)) == S + m)%Q.
  Proof. intros H E. rewrite <- E. field. lra. Qed.

  (** The running mean. *)
  Lemma mean_step l e r n : mean_level cols l e \/ (n = 0 /\ l = [] /\ length e = cols) -> n = length l -> wide r ->
    mean_level cols (l ++ [r]) (map2 (fun e m => (inject_Z (Z.of_nat n) * e + m) / inject_Z (Z.of_nat (n + 1)))%Q e (snd r)).
  Proof.
    intros HM Hn Hw. unfold wide in Hw. assert (HE : length e = cols) by (destruct HM as [[H _]|(_ & _ & H)]; exact H).
    split; [rewrite map2_len by congruence; exact HE|]. intros i x Hx. rewrite map2_nth in Hx by congruence. destruct (nth_error e i) as [y|] eqn:Ey; [|discriminate]. destruct (nth_error (snd r) i) as [m|] eqn:Em; [|discriminate].
    assert (Ex : x = ((inject_Z (Z.of_nat n) * y + m) / inject_Z (Z.of_nat (n + 1)))%Q) by congruence. clear Hx. subst x.
    rewrite column_snoc, sumQ_snoc, (nth_error_nth _ _ _ Em), app_length. cbn [length]. rewrite <- Hn.
    assert (EN : (inject_Z (Z.of_nat (n + 1)) == inject_Z (Z.of_nat n) + 1)%Q) by (rewrite Nat2Z.inj_add, inject_Z_plus; reflexivity).
    assert (PN : (0 <= inject_Z (Z.of_nat n))%Q) by (change 0%Q with (inject_Z 0); rewrite <- Zle_Qle; lia).
    assert (ES : (inject_Z (Z.of_nat n) * y == sumQ (column i l))%Q).
    { destruct HM as [[_ H]|(-> & -> & _)]; [rewrite Hn; apply H; exact Ey|]. cbn. unfold inject_Z. lra. }
    set (N := inject_Z (Z.of_nat n)) in *. rewrite EN. apply frac_ok; [lra|exact ES].
  Qed.

  Lemma firstn_wide r : wide r -> firstn 2 (snd r) = snd r.
  Proof. intros H. apply firstn_all2. unfold wide in H. lia. Qed.

  Lemma flat_snoc L C : flat_map readings (L ++ [C]) = flat_map readings L ++ readings C.
  Proof. rewrite flat_map_app. cbn. rewrite app_nil_r. reflexivity. Qed.

  Lemma start_ext C D : readings C <> [] -> (exists t, readings D = readings C ++ t) -> start_of D = start_of C.
  Proof. intros H [t E]. unfold start_of. rewrite E. destruct (readings C); [contradiction|reflexivity]. Qed.

  Lemma step_inv s done L C levels X r : INV s done L C levels X -> wide r ->
    exists L' C' levels' X', INV (step threshold noise s r) (done ++ [r]) L' C' levels' X'.
  Proof.
    intros HI Hw. pose proof (close _ _ _ _ _ _ HI) as (X' & K1 & K2 & K3 & K4 & K5 & K6 & K7 & K8). destruct HI as [I1 I2 I3 [I4 I4'] I5 I6 I7 I8 I9 I10 I11 I12 I13].
    unfold step. rewrite (firstn_wide r Hw). set (change := any_above threshold (vabs (vsub (snd r) (s_prev s)))).
    assert (HJ : change = true <-> jump threshold (end_of zeros done) (snd r)) by (unfold change; rewrite <- I4; apply jump_spec; unfold wide in Hw; congruence).
    assert (NEC : readings C <> []) by (apply Forall_app in I2; destruct I2 as [_ I2]; inversion_clear I2; assumption).
    pose proof (states_last _ _ _ _ I3) as SC.
    assert (EC : end_of zeros done = end_of (end_of zeros (flat_map readings L)) (readings C)) by (rewrite <- I1, flat_snoc, end_of_app; reflexivity).
    destruct change eqn:Ech.
    - assert (J := proj1 HJ eq_refl). destruct (s_ongoing s) eqn:Eon; cbn [negb andb].
      + (* still changing *)
        assert (ES : settled C = []) by (apply I5; reflexivity). assert (RC : readings C = changing C) by (unfold readings; rewrite ES, app_nil_r; reflexivity).
        exists L, (mkState (changing C ++ [r]) []), levels, X. constructor; cbn [s_est s_last s_prev s_ongoing s_n s_time s_trans s_steady]; try assumption.
        * rewrite flat_snoc. unfold readings at 2. cbn [changing settled]. rewrite app_nil_r, app_assoc. rewrite <- RC. rewrite <- flat_snoc, I1. reflexivity.
        * apply Forall_app in I2. destruct I2 as [I2 _]. apply Forall_app. split; [exact I2|]. constructor; [|constructor]. unfold readings. cbn. destruct (changing C); discriminate.
        * eapply states_replace; [exact I3| |intros _; cbn; destruct (changing C); discriminate]. destruct SC as [S1 S2]. split; cbn [changing settled]; [|exact I].
          apply all_jump_snoc. split; [exact S1|]. rewrite EC, RC in J. exact J.
        * split; [|exact Hw]. rewrite end_of_snoc. reflexivity.
        * split; reflexivity.
        * unfold level_readings. cbn [changing settled]. rewrite last_opt_snoc. reflexivity.
        * unfold level_readings. cbn [changing settled]. rewrite last_opt_snoc. apply (mean_step [] (s_est s) r 0); [right; split; [reflexivity|]; split; [reflexivity|]; destruct I7 as [I7 _]; exact I7|reflexivity|exact Hw].
        * rewrite I10. symmetry. apply start_ext; [exact NEC|]. exists [r]. rewrite RC. unfold readings. cbn. rewrite app_nil_r. reflexivity.
      + (* a new state begins *)
        assert (ES : settled C <> []) by (intros H; apply I5 in H; discriminate).
        exists (L ++ [C]), (mkState [r] []), (levels ++ [s_est s]), X'. constructor; cbn [s_est s_last s_prev s_ongoing s_n s_time s_trans s_steady]; try assumption.
        * rewrite flat_snoc, I1. reflexivity.
        * apply Forall_app. split; [exact I2|]. constructor; [discriminate|constructor].
        * apply states_append; [exact I3|exact ES| |discriminate]. rewrite I1. split; cbn; [|exact I]. split; [exact J|exact I].
        * split; [|exact Hw]. rewrite end_of_snoc. reflexivity.
        * split; reflexivity.
        * reflexivity.
        * apply (mean_step [] _ r 0); [right; split; [reflexivity|]; split; [reflexivity|]; rewrite K5; destruct I7 as [I7 _]; exact I7|reflexivity|exact Hw].
        * rewrite last_last. exact K5.
        * reflexivity.
    - assert (NJ : ~ jump threshold (end_of zeros done) (snd r)) by (intros H; apply HJ in H; discriminate). cbn [andb].
      assert (LR : level_readings (mkState (changing C) (settled C ++ [r])) = level_readings C ++ [r]) by (unfold level_readings; cbn [changing settled]; destruct (last_opt (changing C)); reflexivity).
      exists L, (mkState (changing C) (settled C ++ [r])), levels, X. constructor; cbn [s_est s_last s_prev s_ongoing s_n s_time s_trans s_steady]; try assumption.
      + rewrite flat_snoc. unfold readings at 2. cbn [changing settled]. rewrite (app_assoc (changing C)). change (changing C ++ settled C) with (readings C). rewrite app_assoc, <- flat_snoc, I1. reflexivity.
      + apply Forall_app in I2. destruct I2 as [I2 _]. apply Forall_app. split; [exact I2|]. constructor; [|constructor]. unfold readings. cbn. destruct (changing C); [destruct (settled C)|]; discriminate.
      + eapply states_replace; [exact I3| |intros H; exact H]. destruct SC as [S1 S2]. split; cbn [changing settled]; [exact S1|]. apply all_steady_snoc. split; [exact S2|].
        rewrite EC in NJ. unfold readings in NJ. rewrite end_of_app in NJ. exact NJ.
      + split; [|exact Hw]. rewrite end_of_snoc. reflexivity.
      + split; [discriminate|]. destruct (settled C); discriminate.
      + rewrite LR, app_length, I6. reflexivity.
      + rewrite LR. apply mean_step; [left; exact I7|exact I6|exact Hw].
      + rewrite I10. symmetry. apply start_ext; [exact NEC|]. exists [r]. unfold readings. cbn. rewrite app_assoc. reflexivity.
  Qed.

  Lemma zeros_abs : exceeds_abs noise (vsub zeros zeros) -> False.
  Proof.
    intros (i & x & Hi & L). unfold vsub in Hi. rewrite map2_nth in Hi by reflexivity. unfold zeros in Hi. destruct (nth_error (repeat 0%Q cols) i) as [y|] eqn:E; [|discriminate].
    assert (y = 0%Q) by (apply nth_error_In in E; apply repeat_spec in E; exact E). subst y. assert (x = (0 - 0)%Q) by congruence. subst x.
    assert (Z0 : (Qabs (0 - 0) == 0)%Q) by reflexivity. rewrite Z0 in L. lra.
  Qed.

  Lemma first_inv r : wide r -> exists C, INV (step threshold noise (init cols (fst r)) r) [r] [] C [] [].
  Proof.
    intros Hw. unfold step. rewrite (firstn_wide r Hw). change (s_prev (init cols (fst r))) with zeros. set (change := any_above threshold (vabs (vsub (snd r) zeros))).
    assert (ZL : length zeros = cols) by apply repeat_length.
    assert (HJ : change = true <-> jump threshold zeros (snd r)) by (apply jump_spec; unfold wide in Hw; congruence).
    change (s_ongoing (init cols (fst r))) with false. cbn [negb]. rewrite andb_true_r.
    assert (RE : record_edge noise (init cols (fst r)) = init cols (fst r)).
    { unfold record_edge. change (vsub (s_est (init cols (fst r))) (s_last (init cols (fst r)))) with (vsub zeros zeros). destruct (any_above noise (vabs (vsub zeros zeros))) eqn:E; [|reflexivity]. apply any_above_abs in E. destruct (zeros_abs E). }
    assert (MS : mean_level cols [r] (map2 (fun e m => (inject_Z (Z.of_nat 0) * e + m) / inject_Z (Z.of_nat (0 + 1)))%Q zeros (snd r))) by (apply (mean_step [] zeros r 0); [right; auto|reflexivity|exact Hw]).
    destruct change eqn:Ech.
    - rewrite RE. exists (mkState [r] []). constructor; cbn [s_est s_last s_prev s_ongoing s_n s_time s_trans s_steady init app].
      + reflexivity.
      + constructor; [discriminate|constructor].
      + split; [split; cbn; [split; [apply HJ; reflexivity|exact I]|exact I]|]. split; [intros H; contradiction|]. split; [constructor|exact I].
      + split; [reflexivity|exact Hw].
      + split; reflexivity.
      + reflexivity.
      + exact MS.
      + constructor.
      + reflexivity.
      + reflexivity.
      + constructor.
      + reflexivity.
      + reflexivity.
    - assert (NJ : ~ jump threshold zeros (snd r)) by (intros H; apply HJ in H; discriminate).
      exists (mkState [] [r]). constructor; cbn [s_est s_last s_prev s_ongoing s_n s_time s_trans s_steady init app].
      + reflexivity.
      + constructor; [discriminate|constructor].
      + split; [split; cbn; [exact I|split; [exact NJ|exact I]]|]. split; [intros H; contradiction|]. split; [constructor|exact I].
      + split; [reflexivity|exact Hw].
      + split; discriminate.
      + reflexivity.
      + exact MS.
      + constructor.
      + reflexivity.
      + reflexivity.
      + constructor.
      + reflexivity.
      + reflexivity.
  Qed.

  Lemma run_inv rows : Forall wide rows -> forall s done L C levels X, INV s done L C levels X ->
    exists L' C' levels' X', INV (fold_left (step threshold noise) rows s) (done ++ rows) L' C' levels' X'.
  Proof.
    induction 1 as [|r rows Hr HF IH]; intros s done L C levels X HI; cbn [fold_left]; [rewrite app_nil_r; eauto|].
    destruct (step_inv _ _ _ _ _ _ r HI Hr) as (L1 & C1 & lv1 & X1 & H1). destruct (IH _ _ _ _ _ _ H1) as (L2 & C2 & lv2 & X2 & H2). rewrite <- app_assoc in H2. cbn [app] in H2. eauto.
  Qed.

  Lemma steady_thm r0 rows : Forall wide (r0 :: rows) ->
    exists l levels sel, splits threshold cols (r0 :: rows) l /\ Forall2 (fun s lev => mean_level cols (level_readings s) lev) l levels /\
      selected (fun x => exceeds_abs noise (snd (fst x))) (changes zeros (combine (map start_of l) levels)) sel /\
      match sel with
      | [] => find_steady_states cols (r0 :: rows) threshold noise = Err IndexError
      | (t, d, lev) :: rest =>
          (t = fst r0 /\ exceeds noise lev -> find_steady_states cols (r0 :: rows) threshold noise = Ok (map ps rest, map pt rest)) /\
          (~ (t = fst r0 /\ exceeds noise lev) -> find_steady_states cols (r0 :: rows) threshold noise = Ok (map ps sel, map pt sel))
      end.
  Proof.
    intros HW. inversion_clear HW. destruct (first_inv r0 H) as (C0 & HI0). destruct (run_inv rows H0 _ _ _ _ _ _ HI0) as (L & C & levels & X & HI).
    destruct (close _ _ _ _ _ _ HI) as (X' & K1 & K2 & K3 & K4 & _). exists (L ++ [C]), (levels ++ [s_est (fold_left (step threshold noise) rows (step threshold noise (init cols (fst r0)) r0))]), X'.
    split; [|split; [exact K4|split; [exact K1|]]].
    - split; [exact (v_done _ _ _ _ _ _ HI)|]. split; [exact (v_ne _ _ _ _ _ _ HI)|exact (v_ok _ _ _ _ _ _ HI)].
    - unfold find_steady_states. replace (2 <? cols) with false by (symmetry; apply Nat.ltb_ge; exact cols2). cbn [fold_left]. rewrite K2, K3. destruct X' as [|[[t d] lev] rest]; [reflexivity|].
      cbn [map pt ps fst snd]. rewrite Z.eqb_refl. cbn [andb].
      assert (B : any_above noise lev && (t =? fst r0)%Z = true <-> (t = fst r0 /\ exceeds noise lev)) by (rewrite andb_true_iff, any_above_spec, Z.eqb_eq; tauto).
      destruct (any_above noise lev && (t =? fst r0)%Z) eqn:E; split; intros HC; try reflexivity.
      + exfalso. apply HC. apply B. reflexivity.
      + apply B in HC. congruence.
  Qed.
End Run.
