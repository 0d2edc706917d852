From Verif Require Import Base ApiModel ApiSpec.
Open Scope Z_scope.

(** ** Rising lists *)

Lemma rising_filter f l : rising l -> rising (filter f l).
Proof.
  induction l as [|x l IH]; intros H; [exact I|]. destruct H as [H1 H2]. cbn [filter]. destruct (f x); [|apply IH; exact H2].
  split; [intros y Hy; apply filter_In in Hy; apply H1; tauto|apply IH; exact H2].
Qed.

Lemma rising_index_filter f (l : frame) : rising (index l) -> rising (index (filter f l)).
Proof.
  induction l as [|x l IH]; intros H; [exact I|]. destruct H as [H1 H2]. cbn [filter]. destruct (f x); [|apply IH; exact H2].
  split; [|apply IH; exact H2]. intros y Hy. apply H1. unfold index in *. apply in_map_iff in Hy. destruct Hy as (r & <- & Hr). apply filter_In in Hr. apply in_map. tauto.
Qed.

Lemma rising_unique (f : frame) t c c' : rising (index f) -> In (t, c) f -> In (t, c') f -> c = c'.
Proof.
  induction f as [|r f IH]; intros H H1 H2; [destruct H1|]. destruct H as [Ha Hb].
  destruct H1 as [->|H1], H2 as [E|H2].
  - congruence.
  - assert (t < t); [|lia]. apply (Ha t). apply (in_map fst) in H2. exact H2.
  - subst r. assert (t < t); [|lia]. apply (Ha t). apply (in_map fst) in H1. exact H1.
  - apply IH; assumption.
Qed.

Lemma rising_ext l m : rising l -> rising m -> (forall t, In t l <-> In t m) -> l = m.
Proof.
  revert m. induction l as [|x l IH]; intros m Hl Hm H.
  - destruct m as [|y m]; [reflexivity|]. exfalso. apply (proj2 (H y)). left. reflexivity.
  - destruct m as [|y m]; [exfalso; apply (proj1 (H x)); left; reflexivity|]. destruct Hl as [L1 L2], Hm as [M1 M2].
    assert (x = y).
    { destruct (proj1 (H x) (or_introl eq_refl)) as [E|E]; [congruence|]. destruct (proj2 (H y) (or_introl eq_refl)) as [E'|E']; [congruence|].
      specialize (M1 _ E). specialize (L1 _ E'). lia. }
    subst y. f_equal. apply IH; [exact L2|exact M2|]. intros t. split; intros Ht.
    + destruct (proj1 (H t) (or_intror Ht)) as [<-|K]; [|exact K]. specialize (L1 _ Ht). lia.
    + destruct (proj2 (H t) (or_intror Ht)) as [<-|K]; [|exact K]. specialize (M1 _ Ht). lia.
Qed.

(** ** dropna *)

Lemma full_iff c : full c = true <-> ~ In None c.
Proof.
  unfold full. rewrite forallb_forall. split.
  - intros H K. specialize (H _ K). discriminate.
  - intros H [v|] Hx; [reflexivity|contradiction].
Qed.

Lemma complete_iff f t : complete_at f t <-> In t (index (dropna_frame f)).
Proof.
  unfold complete_at, index, dropna_frame. rewrite in_map_iff. split.
  - intros (c & H1 & H2). exists (t, c). split; [reflexivity|]. apply filter_In. split; [exact H1|]. apply full_iff. exact H2.
  - intros ([t' c] & E & H). cbn in E. subst t'. apply filter_In in H. exists c. split; [tauto|]. apply full_iff. tauto.
Qed.

Lemma mem_iff t ix : mem t ix = true <-> In t ix.
Proof. unfold mem. rewrite existsb_exists. split; [intros (x & H & E); apply Z.eqb_eq in E; subst; exact H|intros H; exists t; split; [exact H|apply Z.eqb_refl]]. Qed.

Lemma intersection_in a b t : In t (intersection a b) <-> In t a /\ In t b.
Proof. unfold intersection. rewrite filter_In, mem_iff. tauto. Qed.

Lemma fold_intersection apps : forall ix t, In t (fold_left (fun ix a => intersection ix (index a)) apps ix) <-> In t ix /\ forall a, In a apps -> In t (index a).
Proof.
  induction apps as [|a apps IH]; intros ix t; cbn [fold_left].
  - split; [intros H; split; [exact H|intros a []]|tauto].
  - rewrite IH, intersection_in. split.
    + intros [[H1 H2] H3]. split; [exact H1|]. intros b [<-|Hb]; [exact H2|apply H3; exact Hb].
    + intros [H1 H2]. split; [split; [exact H1|apply H2; left; reflexivity]|]. intros b Hb. apply H2. right. exact Hb.
Qed.

Lemma fold_intersection_rising apps : forall ix, rising ix -> rising (fold_left (fun ix a => intersection ix (index a)) apps ix).
Proof. induction apps as [|a apps IH]; intros ix H; [exact H|]. apply IH. apply rising_filter. exact H. Qed.

Lemma row_at_some f t r : row_at f t = Some r -> In r f /\ fst r = t.
Proof. unfold row_at. intros H. apply find_some in H. rewrite Z.eqb_eq in H. exact H. Qed.

Lemma row_at_in f t : In t (index f) -> exists c, row_at f t = Some (t, c).
Proof.
  intros H. destruct (row_at f t) as [[t' c]|] eqn:E; [apply row_at_some in E; cbn in E; destruct E as [_ ->]; eauto|].
  unfold row_at in E. apply in_map_iff in H. destruct H as (r & <- & Hr). pose proof (find_none _ _ E r Hr) as K. cbn in K. rewrite Z.eqb_refl in K. discriminate.
Qed.

Lemma loc_ok f ix : (forall t, In t ix -> In t (index f)) -> exists f', loc f ix = Ok f' /\ restricted f ix f'.
Proof.
  induction ix as [|t ix IH]; intros H; [exists []; split; [reflexivity|split; [reflexivity|intros r []]]|].
  destruct IH as (f' & E & R1 & R2); [intros u Hu; apply H; right; exact Hu|]. destruct (row_at_in f t) as [c Hc]; [apply H; left; reflexivity|].
  exists ((t, c) :: f'). unfold loc in *. cbn [mapM]. rewrite Hc, E. split; [reflexivity|]. split; [cbn; rewrite R1; reflexivity|].
  intros r [<-|Hr]; [apply row_at_some in Hc; tauto|apply R2; exact Hr].
Qed.

Lemma restricted_self f f' : rising (index f) -> restricted f (index f) f' -> f' = f.
Proof.
  intros HR [H1 H2]. assert (G : forall f1 f2 : frame, rising (index f) -> (forall r, In r f1 -> In r f) -> (forall r, In r f2 -> In r f) -> map fst f1 = map fst f2 -> f1 = f2).
  { clear -HR. induction f1 as [|[t c] f1 IH]; intros f2 HR' I1 I2 E; destruct f2 as [|[t' c'] f2]; try discriminate; [reflexivity|]. cbn in E. injection E as <- E.
    f_equal; [f_equal; apply (rising_unique f t c c' HR'); [apply I1|apply I2]; left; reflexivity|]. apply IH; auto; [intros r Hr; apply I1|intros r Hr; apply I2]; right; exact Hr. }
  apply G; auto.
Qed.

Lemma mapM_F2 {A B} (f : A -> res B) (R : A -> B -> Prop) l : (forall x, In x l -> exists y, f x = Ok y /\ R x y) ->
  exists ys, mapM f l = Ok ys /\ Forall2 R l ys.
Proof.
  induction l as [|x l IH]; intros H; [exists []; split; constructor|].
  destruct (H x (or_introl eq_refl)) as (y & Ey & Ry). destruct IH as (ys & E & F); [intros z Hz; apply H; right; exact Hz|].
  exists (y :: ys). cbn [mapM]. rewrite Ey, E. split; [reflexivity|constructor; assumption].
Qed.

Lemma F2_map_l {A B C} (g : A -> B) (R : B -> C -> Prop) l m : Forall2 R (map g l) m -> Forall2 (fun a c => R (g a) c) l m.
Proof. revert m. induction l as [|x l IH]; intros m H; inversion H; subst; constructor; auto. Qed.

Lemma F2_imp {A B} (R S : A -> B -> Prop) l m : (forall a b, R a b -> S a b) -> Forall2 R l m -> Forall2 S l m.
Proof. intros H. induction 1; constructor; auto. Qed.

Lemma dropna_spec mains appliances : rising (index mains) -> exists ix m' new,
  dropna mains appliances = Ok (m', new, map dropna_frame appliances) /\
  rising ix /\ (forall t, In t ix <-> usable mains appliances t) /\
  restricted mains ix m' /\ Forall2 (fun a a' => restricted a ix a') appliances new /\
  (forall r, In r m' -> ~ In None (snd r)) /\ Forall (fun a' => forall r, In r a' -> ~ In None (snd r)) new.
Proof.
  intros HR. pose proof (rising_index_filter (fun r => full (snd r)) mains HR) as HD. fold (dropna_frame mains) in HD.
  unfold dropna. destruct (loc_ok (dropna_frame mains) (index (dropna_frame mains)) (fun t H => H)) as (m0 & E0 & R0).
  apply restricted_self in R0; [|exact HD]. rewrite R0 in E0. rewrite E0. cbn [bind].
  set (ix := fold_left _ _ _).
  assert (Hix : forall t, In t ix <-> usable mains appliances t).
  { intros t. unfold ix. rewrite fold_intersection. unfold usable. rewrite complete_iff. split; intros [H1 H2]; (split; [exact H1|]).
    - intros a Ha. apply complete_iff. apply H2. apply in_map. exact Ha.
    - intros a Ha. apply in_map_iff in Ha. destruct Ha as (b & <- & Hb). apply complete_iff. apply H2. exact Hb. }
  assert (N : forall (f f' : frame), restricted (dropna_frame f) ix f' -> restricted f ix f' /\ forall r, In r f' -> ~ In None (snd r)).
  { intros f f' [H1 H2]. split; [split; [exact H1|]|]; intros r Hr; apply H2, filter_In in Hr; [tauto|apply full_iff; tauto]. }
  destruct (loc_ok (dropna_frame mains) ix) as (m' & E1 & R1); [intros t Ht; apply Hix in Ht; apply complete_iff; exact (proj1 Ht)|].
  rewrite E1. cbn [bind].
  destruct (mapM_F2 (fun a => loc a ix) (fun a a' => restricted a ix a') (map dropna_frame appliances)) as (new & E2 & R2).
  { intros a Ha. apply loc_ok. intros t Ht. apply in_map_iff in Ha. destruct Ha as (b & <- & Hb). apply Hix in Ht. apply complete_iff. exact (proj2 Ht b Hb). }
  rewrite E2. cbn [bind]. exists ix, m', new. split; [reflexivity|]. split; [apply fold_intersection_rising; exact HD|]. split; [exact Hix|].
  apply N in R1. split; [tauto|]. apply F2_map_l in R2. split; [|split; [tauto|]].
  - eapply F2_imp; [|exact R2]. intros a a' H. apply (N _ _ H).
  - clearbody ix. clear -R2 N. induction R2 as [|a a' l l' H _ IH]; constructor; [apply (N _ _ H)|exact IH].
Qed.

(** ** Artificial aggregate *)

Lemma restricted_row f ix f' t c : rising (index f) -> restricted f ix f' -> In t ix -> In (t, c) f -> row_at f' t = Some (t, c).
Proof.
  intros HR [H1 H2] Ht Hc. rewrite <- H1 in Ht. destruct (row_at_in f' t Ht) as [c' Hc']. rewrite Hc'. pose proof (row_at_some _ _ _ Hc') as [K _].
  apply H2 in K. rewrite (rising_unique f t c c' HR Hc K). reflexivity.
Qed.

(** Cell-wise sum of rows. *)
Definition sum_cells (width : nat) (rows : list cells) : cells := fold_left add_cells rows (repeat (Some 0) width).

Lemma map_const_repeat {A B} (b : B) (l : list A) : map (fun _ => b) l = repeat b (length l).
Proof. induction l as [|x l IH]; [reflexivity|]. cbn. rewrite IH. reflexivity. Qed.

Lemma add_cells_length a b : length (add_cells a b) = length a.
Proof. revert b. induction a as [|x a IH]; intros [|y b]; cbn; auto. Qed.

Lemma add_frame_index df app : index (add_frame df app) = index df.
Proof. unfold index, add_frame. rewrite map_map. reflexivity. Qed.

Definition cell_at (f : frame) (t : Z) : cells := match row_at f t with Some r => snd r | None => [] end.

Lemma fold_add_frame apps : forall df, (forall a t, In a apps -> In t (index df) -> In t (index a)) ->
  fold_left add_frame apps df = map (fun r => (fst r, fold_left add_cells (map (fun a => cell_at a (fst r)) apps) (snd r))) df.
Proof.
  induction apps as [|a apps IH]; intros df H; cbn [fold_left map].
  - rewrite <- (map_id df) at 1. apply map_ext. intros []. reflexivity.
  - rewrite IH by (intros b t Hb Ht; rewrite add_frame_index in Ht; apply H; [right; exact Hb|exact Ht]).
    unfold add_frame. rewrite map_map. apply map_ext_in. intros r Hr. cbn [fst snd]. f_equal. f_equal.
    unfold cell_at. destruct (row_at_in a (fst r)) as [c Hc]; [apply H; [left; reflexivity|apply in_map; exact Hr]|]. rewrite Hc. reflexivity.
Qed.

Lemma aggregate_spec apps ix : apps <> [] -> (forall a, In a apps -> index a = ix) ->
  exists f, artificial_aggregate apps = Ok f /\ index f = ix /\
    forall t, In t ix -> exists c0, row_at f t = Some (t, sum_cells (length c0) (map (fun a => cell_at a t) apps)) /\ hd_error apps <> None /\ cell_at (hd [] apps) t = c0.
Proof.
  intros Hne Hix. destruct apps as [|a apps]; [contradiction|]. unfold artificial_aggregate.
  eexists. split; [reflexivity|]. rewrite fold_add_frame.
  2:{ intros b t Hb Ht. rewrite (Hix b Hb). unfold index in Ht. rewrite map_map in Ht. cbn [fst] in Ht. change (In t (index a)) in Ht. rewrite (Hix a) in Ht by (left; reflexivity). exact Ht. }
  rewrite map_map. cbn [fst snd]. split.
  - unfold index. rewrite map_map. cbn [fst]. change (index a = ix). apply Hix. left. reflexivity.
  - intros t Ht. rewrite <- (Hix a) in Ht by (left; reflexivity). exists (cell_at a t). split; [|split; [discriminate|reflexivity]].
    assert (G : forall g : Z * cells -> cells, (forall r, g r = g (fst r, snd r)) -> row_at (map (fun x => (fst x, g x)) a) t = option_map (fun r => (fst r, g r)) (row_at a t)).
    { clear. intros g _. induction a as [|r a IH]; [reflexivity|]. unfold row_at in *. cbn [map find fst]. destruct (fst r =? t); [reflexivity|exact IH]. }
    etransitivity; [exact (G (fun r => fold_left add_cells (map (fun a0 => cell_at a0 (fst r)) (a :: apps)) (map (fun _ => Some 0) (snd r))) (fun r => match r with (_, _) => eq_refl end))|].
    destruct (row_at_in a t Ht) as [c Hc]. rewrite Hc. cbn [option_map fst snd]. unfold sum_cells. rewrite map_const_repeat. unfold cell_at at 3. rewrite Hc. reflexivity.
Qed.

(** One-column frames: the aggregate is the sum of the appliances. *)
Lemma fold_add_one vs : forall s, fold_left add_cells (map (fun v => [Some v]) vs) [Some s] = [Some (s + sumZ vs)].
Proof.
  induction vs as [|v vs IH]; intros s; cbn [map fold_left sumZ]; [rewrite Z.add_0_r; reflexivity|]. cbn [add_cells add_cell]. rewrite IH. do 2 f_equal. lia.
Qed.


Lemma aggregate_after_dropna mains appliances m' new seen : rising (index mains) ->
  appliances <> [] -> Forall one_column appliances ->
  dropna mains appliances = Ok (m', new, seen) ->
  exists f, artificial_aggregate new = Ok f /\ index f = index m' /\
    forall t, In t (index f) -> exists vs, Forall2 (fun a v => In (t, [Some v]) a) appliances vs /\ row_at f t = Some (t, [Some (sumZ vs)]).
Proof.
  intros HM Hne H1 ED. destruct (dropna_spec mains appliances HM) as (ix & m & nw & E & HI & Hu & Rm & Rn & _ & Nn). rewrite E in ED. injection ED as <- <- _.
  destruct (aggregate_spec nw ix) as (f & Ef & If & Hf).
  { destruct Rn; [contradiction|discriminate]. }
  { clear -Rn. induction Rn as [|a a' l l' H _ IH]; intros b Hb; [destruct Hb|]. destruct Hb as [<-|Hb]; [exact (proj1 H)|apply IH; exact Hb]. }
  exists f. split; [exact Ef|]. split; [rewrite If; symmetry; exact (proj1 Rm)|]. intros t Ht. rewrite If in Ht. destruct (Hf t Ht) as (c0 & Er & _ & Ec0).
  assert (K : exists vs, Forall2 (fun a v => In (t, [Some v]) a) appliances vs /\ map (fun a => cell_at a t) nw = map (fun v => [Some v]) vs).
  { clear -Rn Nn H1 Ht. induction Rn as [|a a' l l' H _ IH]; [exists []; split; constructor|].
    apply Forall_cons_iff in H1. destruct H1 as [O1 O2]. apply Forall_cons_iff in Nn. destruct Nn as [N1 N2].
    destruct (IH O2 N2) as (vs & V1 & V2). destruct H as [Ha Hb]. destruct (row_at_in a' t) as [c Hc]; [unfold index; rewrite Ha; exact Ht|].
    pose proof (row_at_some _ _ _ Hc) as [Hin _]. pose proof (Hb _ Hin) as Hin'. pose proof (O1 _ Hin') as HL. pose proof (N1 _ Hin) as HN. cbn [snd] in HL, HN.
    destruct c as [|[v|] [|? ?]]; try discriminate; [|exfalso; apply HN; left; reflexivity].
    exists (v :: vs). split; [constructor; assumption|]. cbn [map]. f_equal; [unfold cell_at; rewrite Hc; reflexivity|exact V2]. }
  destruct K as (vs & V1 & V2). exists vs. split; [exact V1|]. rewrite Er. rewrite V2. do 2 f_equal.
  assert (L : length c0 = 1%nat).
  { destruct nw as [|a0 nw]; [inversion Rn; subst; contradiction|]. cbn [hd] in Ec0. destruct vs as [|v vs]; [discriminate|]. cbn [map] in V2. injection V2 as V2 _. rewrite <- Ec0, V2. reflexivity. }
  rewrite L. unfold sum_cells. cbn [repeat]. rewrite fold_add_one. reflexivity.
Qed.

(** ** Chunk-wise training *)

Lemma train_from_spec appliances : forall mains k, Forall (fun m => rising (index m)) mains ->
  exists calls, train_from k mains appliances = Ok calls /\ length calls = length mains /\
    forall i m, nth_error mains i = Some m -> exists ix m' new, nth_error calls i = Some (m', new) /\ rising ix /\
      (forall t, In t ix <-> usable m (map (fun chunks => nth_chunk chunks (k + i)) appliances) t) /\
      restricted m ix m' /\ Forall2 (fun chunks a' => restricted (nth_chunk chunks (k + i)) ix a') appliances new.
Proof.
  induction mains as [|m mains IH]; intros k HM; cbn [train_from].
  - exists []. split; [reflexivity|]. split; [reflexivity|]. intros [|i] m H; discriminate.
  - apply Forall_cons_iff in HM. destruct HM as [HM1 HM2]. destruct (IH (S k) HM2) as (calls & E & L & F).
    unfold training_chunk. destruct (dropna_spec m (map (fun chunks => nth_chunk chunks k) appliances) HM1) as (ix & m' & nw & E1 & HI & Hu & Rm & Rn & _).
    rewrite E1. cbn [bind]. rewrite E. cbn [bind]. exists ((m', nw) :: calls). split; [reflexivity|]. split; [cbn; lia|].
    intros [|i] m0 Hm; cbn [nth_error] in Hm.
    + injection Hm as <-. exists ix, m', nw. rewrite Nat.add_0_r. split; [reflexivity|]. split; [exact HI|]. split; [exact Hu|]. split; [exact Rm|]. apply F2_map_l in Rn. exact Rn.
    + destruct (F i m0 Hm) as (ix0 & m0' & nw0 & F1 & F2 & F3 & F4 & F5). exists ix0, m0', nw0. replace (k + S i)%nat with (S k + i)%nat by lia.
      split; [exact F1|]. split; [exact F2|]. split; [exact F3|]. split; [exact F4|exact F5].
Qed.

Lemma complete_concat chunks t : complete_at (concat chunks) t <-> exists k, complete_at (nth_chunk chunks k) t.
Proof.
  unfold complete_at, nth_chunk. split.
  - intros (c & H & N). apply in_concat in H. destruct H as (f & Hf & H). apply (In_nth _ _ []) in Hf. destruct Hf as (k & _ & E). exists k, c. subst f. auto.
  - intros (k & c & H & N). exists c. split; [|exact N]. apply in_concat. destruct (Nat.lt_ge_cases k (length chunks)) as [L|L]; [exists (nth k chunks []); split; [apply nth_In; exact L|exact H]|].
    rewrite nth_overflow in H by exact L. destruct H.
Qed.


Lemma train_spec mains appliances : Forall (fun m => rising (index m)) mains ->
  exists calls, train_chunk_wise mains appliances = Ok calls /\ length calls = length mains /\
    (forall t, (exists call, In call calls /\ In t (index (fst call))) -> usable (concat mains) (map (@concat _) appliances) t) /\
    (aligned mains appliances -> forall t, usable (concat mains) (map (@concat _) appliances) t -> exists call, In call calls /\ In t (index (fst call))).
Proof.
  intros HM. destruct (train_from_spec appliances mains 0 HM) as (calls & E & L & F). exists calls. split; [exact E|]. split; [exact L|]. split.
  - intros t (call & Hc & Ht). apply In_nth_error in Hc. destruct Hc as [i Hi]. destruct (nth_error mains i) as [m|] eqn:Em.
    2:{ apply nth_error_None in Em. assert (nth_error calls i <> None) by congruence. apply nth_error_Some in H. lia. }
    destruct (F i m Em) as (ix & m' & nw & F1 & _ & F3 & F4 & _). rewrite F1 in Hi. injection Hi as <-. cbn [fst] in Ht. unfold index in Ht. rewrite (proj1 F4) in Ht.
    apply F3 in Ht. destruct Ht as [U1 U2]. split.
    + apply complete_concat. exists i. unfold nth_chunk. rewrite (nth_error_nth _ _ _ Em). exact U1.
    + intros a Ha. apply in_map_iff in Ha. destruct Ha as (chunks & <- & Hch). apply complete_concat. exists i. apply U2. apply in_map_iff. exists chunks. auto.
  - intros HA t [U1 U2]. apply complete_concat in U1. destruct U1 as [i Hi].
    destruct (nth_error mains i) as [m|] eqn:Em.
    2:{ unfold nth_chunk in Hi. rewrite nth_overflow in Hi by (apply nth_error_None; exact Em). destruct Hi as (c & [] & _). }
    destruct (F i m Em) as (ix & m' & nw & F1 & _ & F3 & F4 & _). exists (m', nw). split; [eapply nth_error_In; exact F1|]. cbn [fst]. unfold index. rewrite (proj1 F4). apply F3.
    split; [unfold nth_chunk in Hi; rewrite (nth_error_nth _ _ _ Em) in Hi; exact Hi|].
    intros a Ha. apply in_map_iff in Ha. destruct Ha as (chunks & <- & Hch). cbn [plus].
    assert (Hc : complete_at (concat chunks) t) by (apply U2; apply in_map; exact Hch). apply complete_concat in Hc. destruct Hc as [j Hj].
    rewrite <- (HA i j chunks t Hch Hi Hj) in Hj. exact Hj.
Qed.

(** ** predict *)

Lemma insert_time_app t l : rising l -> (forall x, In x l -> x < t) -> insert_time t l = l ++ [t].
Proof.
  induction l as [|x l IH]; intros HR H; [reflexivity|]. cbn [insert_time]. pose proof (H x (or_introl eq_refl)). replace (t <? x) with false by lia. replace (t =? x) with false by lia.
  rewrite IH; [reflexivity|apply HR|]. intros y Hy. apply H. right. exact Hy.
Qed.

Lemma insert_time_same t l : rising l -> In t l -> insert_time t l = l.
Proof.
  induction l as [|x l IH]; intros HR H; [destruct H|]. cbn [insert_time]. destruct HR as [H1 H2]. destruct H as [->|H].
  - rewrite Z.ltb_irrefl, Z.eqb_refl. reflexivity.
  - specialize (H1 _ H). replace (t <? x) with false by lia. replace (t =? x) with false by lia. rewrite IH by assumption. reflexivity.
Qed.

Lemma rising_app_iff a b : rising (a ++ b) <-> rising a /\ rising b /\ forall x y, In x a -> In y b -> x < y.
Proof.
  induction a as [|x a IH]; cbn [app rising].
  - split; [intros H; split; [exact I|split; [exact H|intros x y []]]|tauto].
  - rewrite IH. split.
    + intros [H1 (H2 & H3 & H4)]. split; [split; [intros y Hy; apply H1; apply in_or_app; auto|exact H2]|]. split; [exact H3|]. intros u v [<-|Hu] Hv; [apply H1; apply in_or_app; auto|apply H4; assumption].
    + intros ([H1 H2] & H3 & H4). split; [|split; [exact H2|split; [exact H3|intros u v Hu Hv; apply H4; [right; exact Hu|exact Hv]]]].
      intros y Hy. apply in_app_or in Hy. destruct Hy as [Hy|Hy]; [apply H1; exact Hy|apply H4; [left; reflexivity|exact Hy]].
Qed.

Lemma insert_all_new ix : forall acc, rising (acc ++ ix) -> fold_left (fun a t => insert_time t a) ix acc = acc ++ ix.
Proof.
  induction ix as [|t ix IH]; intros acc H; [cbn; rewrite app_nil_r; reflexivity|]. cbn [fold_left]. pose proof H as H'. apply rising_app_iff in H'. destruct H' as (A1 & A2 & A3).
  rewrite insert_time_app; [|exact A1|intros x Hx; apply A3; [exact Hx|left; reflexivity]]. replace (acc ++ t :: ix) with ((acc ++ [t]) ++ ix) in * by (rewrite <- app_assoc; reflexivity). apply IH. exact H.
Qed.

Lemma insert_all_same ix acc : rising acc -> (forall t, In t ix -> In t acc) -> fold_left (fun a t => insert_time t a) ix acc = acc.
Proof.
  intros HR. induction ix as [|t ix IH]; intros H; [reflexivity|]. cbn [fold_left]. rewrite insert_time_same; [|exact HR|apply H; left; reflexivity]. apply IH. intros u Hu. apply H. right. exact Hu.
Qed.

Lemma union_same ix ixs : rising ix -> ixs <> [] -> (forall i, In i ixs -> i = ix) -> union_index ixs = ix.
Proof.
  intros HR Hne H. destruct ixs as [|i ixs]; [contradiction|]. unfold union_index. cbn [fold_left]. rewrite (H i) by (left; reflexivity). rewrite insert_all_new by exact HR. cbn [app].
  assert (H' : forall j, In j ixs -> j = ix) by (intros j Hj; apply H; right; exact Hj). clear H. induction ixs as [|j ixs IH]; [reflexivity|]. cbn [fold_left].
  rewrite (H' j) by (left; reflexivity). rewrite insert_all_same; [|exact HR|auto]. apply IH; [discriminate|]. intros k Hk. apply H'. right. exact Hk.
Qed.


Lemma combine_fst_map {A} (l : frame) (g : Z * cells -> A) : combine (map fst l) (map g l) = map (fun r => (fst r, g r)) l.
Proof. induction l as [|r l IH]; [reflexivity|]. cbn. rewrite IH. reflexivity. Qed.

Lemma predict_spec mains appliances m' new seen (g : list (Z * cells -> Z)) pad : rising (index mains) -> Forall (fun a => rising (index a)) appliances ->
  appliances <> [] -> Forall one_column appliances ->
  dropna mains appliances = Ok (m', new, seen) ->
  exists gt pred, predict (map column new) (map (fun f => map f m' ++ pad) g) = Ok (gt, pred) /\
    map fst gt = map fst m' /\
    (forall t vs, In (t, vs) gt -> Forall2 (fun a v => exists x, v = Some x /\ In (t, [Some x]) a) appliances vs) /\
    pred = map (fun f => map (fun r => (fst r, f r)) m') g.
Proof.
  intros HM HA Hne H1 ED. destruct (dropna_spec mains appliances HM) as (ix & m & nw & E & HI & Hu & Rm & Rn & _ & Nn). rewrite E in ED. injection ED as <- <- _.
  assert (HU : union_index (map (map fst) (map column nw)) = ix).
  { apply union_same; [exact HI| |].
    - destruct Rn; [contradiction|discriminate].
    - intros i Hi. rewrite map_map in Hi. apply in_map_iff in Hi. destruct Hi as (a & <- & Ha). unfold column. rewrite map_map. cbn [fst].
      clear -Rn Ha. induction Rn as [|b b' l l' H _ IH]; [destruct Ha|]. destruct Ha as [<-|Ha]; [exact (proj1 H)|apply IH; exact Ha]. }
  unfold predict. rewrite HU. rewrite map_length. 
  assert (HP : mapM (fun values => series_with (firstn (length ix) values) ix) (map (fun f => map f m ++ pad) g) = Ok (map (fun f => map (fun r => (fst r, f r)) m) g)).
  { clear -Rm. destruct Rm as [<- _]. induction g as [|f g IH]; [reflexivity|]. cbn [map mapM]. rewrite IH.
    rewrite map_length. rewrite firstn_app, map_length, Nat.sub_diag. cbn [firstn]. rewrite app_nil_r. rewrite (firstn_all2 (n := length m)) by (rewrite map_length; reflexivity).
    unfold series_with. rewrite !map_length, Nat.eqb_refl. cbn [bind]. rewrite combine_fst_map. reflexivity. }
  rewrite HP. cbn [bind]. eexists _, _. split; [reflexivity|]. split; [rewrite map_map; cbn [fst]; rewrite map_id; symmetry; exact (proj1 Rm)|]. split; [|reflexivity].
  intros t vs Hin. apply in_map_iff in Hin. destruct Hin as (t' & Et & Ht). injection Et as -> <-. rewrite map_map.
  clear -Rn Nn H1 Ht HA. induction Rn as [|a a' l l' H _ IH]; [constructor|]. apply Forall_cons_iff in H1. destruct H1 as [O1 O2]. apply Forall_cons_iff in Nn. destruct Nn as [N1 N2].
  apply Forall_cons_iff in HA. destruct HA as [A1 A2]. cbn [map]. constructor; [|apply IH; assumption]. destruct H as [Ha Hb]. destruct (row_at_in a' t) as [c Hc]; [unfold index; rewrite Ha; exact Ht|].
  pose proof (row_at_some _ _ _ Hc) as [Hin _]. pose proof (Hb _ Hin) as Hin'. pose proof (O1 _ Hin') as HL. pose proof (N1 _ Hin) as HN. cbn [snd] in HL, HN.
  destruct c as [|[v|] [|? ?]]; try discriminate; [|exfalso; apply HN; left; reflexivity]. exists v. split; [|exact Hin'].
  unfold truth_at, column. unfold row_at in Hc. clear -Hc. unfold frame, cells in *. induction a' as [|r a' IH]; [discriminate|]. cbn [map find] in *. cbn [fst]. destruct (fst r =? t) eqn:Er.
  - injection Hc as ->. reflexivity.
  - apply IH. exact Hc.
Qed.
