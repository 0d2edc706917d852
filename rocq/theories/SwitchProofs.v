(** Proofs about switches. *)
From Coq Require Import Sorting.Sorted.
From Verif Require Import Base SwitchModel SwitchSpec.
Open Scope nat_scope.

Lemma after_in thr c : forall prev t, In t (switches_after thr prev c) <->
  switch_at thr c t \/ exists p x r, prev = Some p /\ c = (t, Some x) :: r /\ (thr < Z.abs (x - p))%Z.
Proof.
  induction c as [|[u y] r IH]; intros prev t; cbn [switches_after].
  - split; [contradiction|]. intros [(b & t0 & p & x & a & E & _)|(p & x & r & _ & E & _)]; [destruct b; discriminate|discriminate].
  - rewrite in_app_iff, IH. split.
    + intros [H|[H|(p & x & r' & Ey & Er & L)]].
      * destruct prev as [p|], y as [x|]; try contradiction. destruct (thr <? Z.abs (x - p))%Z eqn:E; [|contradiction]. destruct H as [<-|[]].
        right. exists p, x, r. apply Z.ltb_lt in E. auto.
      * left. destruct H as (b & t0 & p & x & a & -> & L). exists ((u, y) :: b), t0, p, x, a. split; [reflexivity|exact L].
      * left. subst. exists [], u, p, x, r'. split; [reflexivity|exact L].
    + intros [(b & t0 & p & x & a & E & L)|(p & x & r' & -> & E & L)].
      * right. destruct b as [|q b]; cbn in E; injection E.
        -- intros -> -> ->. right. exists p, x, a. auto.
        -- intros -> _. left. exists b, t0, p, x, a. auto.
      * left. injection E as -> -> ->. apply Z.ltb_lt in L. rewrite L. left. reflexivity.
Qed.

Lemma chunk_thm thr c t : In t (chunk_switches thr c) <-> switch_at thr c t.
Proof. unfold chunk_switches. rewrite after_in. split; [intros [H|(p & x & r & D & _)]; [exact H|discriminate]|left; assumption]. Qed.

Lemma chunks_thm thr cs t : In t (switch_times thr cs) <-> exists c, In c cs /\ switch_at thr c t.
Proof.
  unfold switch_times. rewrite in_concat. split.
  - intros (l & H & Ht). apply in_map_iff in H. destruct H as (c & <- & Hc). exists c. rewrite <- chunk_thm. auto.
  - intros (c & Hc & Ht). exists (chunk_switches thr c). rewrite chunk_thm. split; [apply in_map; exact Hc|exact Ht].
Qed.

Lemma sound_thm thr cs t : In t (switch_times thr cs) -> switch_at thr (concat cs) t.
Proof.
  rewrite chunks_thm. intros (c & Hc & b & t0 & p & x & a & -> & L). apply in_split in Hc. destruct Hc as (l1 & l2 & ->).
  rewrite concat_app. cbn [concat]. exists (concat l1 ++ b), t0, p, x, (a ++ concat l2). split; [|exact L].
  rewrite <- !app_assoc. reflexivity.
Qed.

Lemma head_of_concat {A} (cs : list (list A)) q a : concat cs = q :: a -> exists r, In (q :: r) cs.
Proof.
  induction cs as [|c cs IH]; [discriminate|]. destruct c as [|q' c]; cbn [concat app]; intros E.
  - destruct (IH E) as (r & Hr). exists r. right. exact Hr.
  - injection E as -> _. exists c. left. reflexivity.
Qed.

Lemma complete_thm thr cs t : switch_at thr (concat cs) t -> In t (switch_times thr cs) \/ exists c x r, In c cs /\ c = (t, x) :: r.
Proof.
  rewrite chunks_thm. induction cs as [|c cs IH]; intros (b & t0 & p & x & a & E & L); [destruct b; discriminate|]. cbn [concat] in E.
  apply app_eq_app in E. destruct E as (m & [[E1 E2]|[E1 E2]]).
  - destruct m as [|q m].
    + cbn in E2. rewrite app_nil_r in E1. destruct IH as [(d & Hd & Hs)|(d & y & r & Hd & Er)]; [exists [], t0, p, x, a; split; [symmetry; exact E2|exact L]| |].
      * left. exists d. split; [right; exact Hd|exact Hs].
      * right. exists d, y, r. split; [right; exact Hd|exact Er].
    + cbn in E2. injection E2 as <- E2. destruct m as [|q m].
      * cbn in E2. right. destruct (head_of_concat cs (t, Some x) a (eq_sym E2)) as (r & Hr). exists ((t, Some x) :: r), (Some x), r. split; [right; exact Hr|reflexivity].
      * cbn in E2. injection E2 as <- _. left. exists c. split; [left; reflexivity|]. exists b, t0, p, x, m. split; [exact E1|exact L].
  - destruct IH as [(d & Hd & Hs)|(d & y & r & Hd & Er)]; [exists m, t0, p, x, a; split; [exact E2|exact L]| |].
    + left. exists d. split; [right; exact Hd|exact Hs].
    + right. exists d, y, r. split; [right; exact Hd|exact Er].
Qed.

(** Order. *)
Definition above (a : Z) (l : list Z) : Prop := Forall (fun b => (a < b)%Z) l.

Lemma rising_cons a l : rising (a :: l) <-> above a l /\ rising l.
Proof.
  revert a. induction l as [|b l IH]; intros a; [split; [intros _; split; [constructor|exact I]|intros _; exact I]|].
  cbn [rising]. split.
  - intros [H1 H2]. split; [|exact H2]. constructor; [exact H1|]. apply IH in H2. eapply Forall_impl; [|apply H2]. cbn. intros; lia.
  - intros [H1 H2]. apply Forall_cons_iff in H1. split; [apply H1|exact H2].
Qed.

Lemma rising_app l l' : rising (l ++ l') <-> rising l /\ rising l' /\ forall a b, In a l -> In b l' -> (a < b)%Z.
Proof.
  induction l as [|x l IH]; [cbn; split; [intros H; split; [exact I|split; [exact H|contradiction]]|tauto]|].
  cbn [app]. rewrite !rising_cons, IH. unfold above. rewrite Forall_app, !Forall_forall. split.
  - intros ((H1 & H2) & H3 & H4 & H5). split; [tauto|]. split; [tauto|]. intros a b [<-|Ha] Hb; auto.
  - intros ((H1 & H2) & H3 & H4). split; [split; [exact H1|]|]; [intros b Hb; apply H4; [left; reflexivity|exact Hb]|].
    split; [exact H2|]. split; [exact H3|]. intros a b Ha Hb. apply H4; [right; exact Ha|exact Hb].
Qed.

Lemma after_times thr c : forall prev t, In t (switches_after thr prev c) -> In t (times c).
Proof.
  induction c as [|[u y] r IH]; intros prev t; cbn [switches_after]; [contradiction|]. rewrite in_app_iff. intros [H|H].
  - left. destruct prev as [p|], y as [x|]; try contradiction. destruct (thr <? Z.abs (x - p))%Z; [|contradiction]. destruct H as [<-|[]]. reflexivity.
  - right. apply (IH _ _ H).
Qed.

Lemma after_rising thr c : forall prev, rising (times c) -> rising (switches_after thr prev c).
Proof.
  induction c as [|[u y] r IH]; intros prev H; [exact I|]. cbn [switches_after]. change (times ((u, y) :: r)) with (u :: times r) in H. apply rising_cons in H.
  apply rising_app. split; [|split; [apply IH; apply H|]].
  - destruct prev, y; try exact I. destruct (_ <? _)%Z; exact I.
  - intros a b Ha Hb. apply after_times in Hb. destruct H as [H _]. unfold above in H. rewrite Forall_forall in H.
    destruct prev as [p|], y as [x|]; try contradiction. destruct (thr <? Z.abs (x - p))%Z; [|contradiction]. destruct Ha as [<-|[]]. apply H. exact Hb.
Qed.

Lemma order_thm thr cs : rising (times (concat cs)) -> rising (switch_times thr cs).
Proof.
  unfold switch_times. induction cs as [|c cs IH]; intros H; [exact I|]. cbn [concat map] in *. unfold times in H. rewrite map_app in H. apply rising_app in H.
  destruct H as (H1 & H2 & H3). apply rising_app. split; [apply after_rising; exact H1|]. split; [apply IH; exact H2|].
  intros a b Ha Hb. apply H3; [apply (after_times _ _ _ _ Ha)|].
  apply in_concat in Hb. destruct Hb as (l & Hl & Hb). apply in_map_iff in Hl. destruct Hl as (d & <- & Hd). apply after_times in Hb.
  apply in_map_iff in Hb. destruct Hb as (q & <- & Hq). apply in_map. apply in_concat. exists d. auto.
Qed.

Lemma rising_nodup l : rising l -> NoDup l.
Proof.
  induction l as [|a l IH]; [constructor|]. rewrite rising_cons. intros [H1 H2]. constructor; [|apply IH; exact H2].
  intros H. unfold above in H1. rewrite Forall_forall in H1. specialize (H1 a H). lia.
Qed.

(** The counter. *)
Definition get (t : Z) (count : list (Z * nat)) : nat :=
  match find (fun p => (fst p =? t)%Z) count with Some (_, n) => n | None => 0 end.

Lemma get_increment t u c : get t (increment u c) = (if (u =? t)%Z then 1 else 0) + get t c.
Proof.
  unfold get. induction c as [|[v n] c IH]; cbn [increment find fst].
  - cbn. destruct (u =? t)%Z; reflexivity.
  - destruct (v =? u)%Z eqn:E; cbn [find fst].
    + apply Z.eqb_eq in E. subst v. destruct (u =? t)%Z eqn:F; reflexivity.
    + destruct (v =? t)%Z eqn:F; [|exact IH]. apply Z.eqb_eq in F. subst v. rewrite Z.eqb_sym, E. reflexivity.
Qed.

Lemma get_count_all t l : forall c, get t (count_all l c) = count_occ Z.eq_dec l t + get t c.
Proof.
  induction l as [|u l IH]; intros c; [reflexivity|]. cbn [count_all fold_left]. change (fold_left (fun c t => increment t c) l (increment u c)) with (count_all l (increment u c)).
  rewrite IH, get_increment. cbn [count_occ]. destruct (Z.eq_dec u t) as [->|N]; [rewrite Z.eqb_refl; lia|]. replace (u =? t)%Z with false by (symmetry; apply Z.eqb_neq; exact N). lia.
Qed.

Lemma increment_keys u c : forall t, In t (map fst (increment u c)) <-> t = u \/ In t (map fst c).
Proof.
  induction c as [|[v n] c IH]; intros t; cbn [increment].
  - cbn. intuition congruence.
  - destruct (v =? u)%Z eqn:E; cbn [map fst In].
    + apply Z.eqb_eq in E. subst. intuition.
    + rewrite IH. intuition.
Qed.

Lemma increment_nodup u c : NoDup (map fst c) -> NoDup (map fst (increment u c)).
Proof.
  induction c as [|[v n] c IH]; cbn [increment map fst]; intros H; [constructor; [intros []|constructor]|].
  apply NoDup_cons_iff in H. destruct H as [H1 H2]. destruct (v =? u)%Z eqn:E; cbn [map fst]; constructor; auto.
  rewrite increment_keys. intros [->|H]; [rewrite Z.eqb_refl in E; discriminate|contradiction].
Qed.

Lemma increment_positive u c : Forall (fun p => 0 < snd p) c -> Forall (fun p => 0 < snd p) (increment u c).
Proof.
  induction c as [|[v n] c IH]; cbn [increment]; intros H; [constructor; [cbn; lia|constructor]|].
  apply Forall_cons_iff in H. destruct H as [H1 H2]. destruct (v =? u)%Z; constructor; auto. cbn. lia.
Qed.

Lemma get_in t n c : NoDup (map fst c) -> Forall (fun p => 0 < snd p) c -> 0 < n -> (In (t, n) c <-> get t c = n).
Proof.
  unfold get. induction c as [|[v m] c IH]; intros HN HP Hn; [cbn; split; [contradiction|lia]|].
  cbn [map fst] in HN. apply NoDup_cons_iff in HN. destruct HN as [HN1 HN2]. apply Forall_cons_iff in HP. destruct HP as [HP1 HP2]. cbn [find fst]. destruct (v =? t)%Z eqn:E.
  - apply Z.eqb_eq in E. subst v. split; [intros [H|H]; [congruence|]|intros ->; left; reflexivity].
    exfalso. apply HN1. apply in_map_iff. exists (t, n). auto.
  - rewrite <- (IH HN2 HP2 Hn). split; [intros [H|H]; [injection H as -> ->; rewrite Z.eqb_refl in E; discriminate|exact H]|right; assumption].
Qed.

Definition counter_ok (c : list (Z * nat)) : Prop := NoDup (map fst c) /\ Forall (fun p => 0 < snd p) c.

Lemma count_all_ok l : forall c, counter_ok c -> counter_ok (count_all l c).
Proof.
  induction l as [|u l IH]; intros c H; [exact H|]. cbn. apply IH. destruct H. split; [apply increment_nodup; assumption|apply increment_positive; assumption].
Qed.

Lemma totals thr ms : forall c, counter_ok c -> let c' := fold_left (fun count chunks => count_all (switch_times thr chunks) count) ms c in
  counter_ok c' /\ forall t, get t c' = fold_right (fun m n => count_occ Z.eq_dec (switch_times thr m) t + n) 0 ms + get t c.
Proof.
  induction ms as [|m ms IH]; intros c H; [split; [exact H|reflexivity]|]. cbn [fold_left fold_right].
  destruct (IH _ (count_all_ok (switch_times thr m) c H)) as [H1 H2]. split; [exact H1|]. intros t. rewrite H2, get_count_all. lia.
Qed.

Lemma switching_count thr ms t n : Forall (fun m => NoDup (switch_times thr m)) ms ->
  (switching thr t ms n <-> n = fold_right (fun m n => count_occ Z.eq_dec (switch_times thr m) t + n) 0 ms).
Proof.
  revert n. induction ms as [|m ms IH]; intros n H.
  - split; [intros X; inversion X; reflexivity|intros ->; constructor].
  - apply Forall_cons_iff in H. destruct H as [H1 H2]. cbn [fold_right]. specialize (IH (fold_right (fun m n => count_occ Z.eq_dec (switch_times thr m) t + n) 0 ms) H2) as G.
    split.
    + intros X. inversion X as [|m' l' n' Y Z|m' l' n' Y Z]; subst.
      * apply chunks_thm in Y. rewrite (proj1 (NoDup_count_occ' Z.eq_dec _) H1 _ Y). apply IH in Z; [|exact H2]. lia.
      * assert (N : ~ In t (switch_times thr m)) by (rewrite chunks_thm; intros (c & Hc & Hs); apply (Y c Hc Hs)).
        rewrite (proj1 (count_occ_not_In Z.eq_dec _ _) N). apply IH in Z; [|exact H2]. lia.
    + intros ->. destruct (in_dec Z.eq_dec t (switch_times thr m)) as [Y|Y].
      * rewrite (proj1 (NoDup_count_occ' Z.eq_dec _) H1 _ Y). apply switching_yes; [apply chunks_thm; exact Y|apply G; reflexivity].
      * rewrite (proj1 (count_occ_not_In Z.eq_dec _ _) Y). apply switching_no; [intros c Hc Hs; apply Y; apply chunks_thm; exists c; auto|apply G; reflexivity].
Qed.

Lemma simultaneous_thm thr ms : Forall (fun m => rising (times (concat m))) ms ->
  NoDup (map fst (simultaneous_switches thr ms)) /\
  forall t n, In (t, n) (simultaneous_switches thr ms) <-> switching thr t ms n /\ 2 <= n.
Proof.
  intros H. assert (HN : Forall (fun m => NoDup (switch_times thr m)) ms).
  { eapply Forall_impl; [|exact H]. cbn. intros m Hm. apply rising_nodup. apply order_thm. exact Hm. }
  unfold simultaneous_switches. destruct (totals thr ms [] (conj (NoDup_nil _) (Forall_nil _))) as [[H1 H2] H3]. cbn beta zeta in H1, H2, H3.
  set (c := fold_left (fun (count : list (Z * nat)) (chunks : list chunk) => count_all (switch_times thr chunks) count) ms []) in *. split.
  - clearbody c. clear H2 H3. induction c as [|[u k] c IH]; [constructor|]. cbn [filter map fst] in *. apply NoDup_cons_iff in H1. destruct H1 as [H1 H2]. destruct (2 <=? snd (u, k)); [|apply IH; exact H2].
    cbn [map fst]. constructor; [|apply IH; exact H2]. intros X. apply H1. apply in_map_iff in X. destruct X as (q & <- & Hq). apply filter_In in Hq. apply in_map. apply Hq.
  - intros t n. rewrite filter_In. cbn [snd]. rewrite Nat.leb_le. rewrite (switching_count thr ms t n HN). split; intros [X Y]; (split; [|exact Y]).
    + apply get_in in X; [|assumption|assumption|lia]. rewrite H3 in X. cbn in X. lia.
    + apply get_in; [assumption|assumption|lia|]. rewrite H3. cbn. lia.
Qed.
