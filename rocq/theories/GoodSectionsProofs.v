(** Proofs about good sections of one chunk. *)
From Verif Require Import Base TimeFrameModel TimeFrameSpec TimeFrameProofs SortLib ResultsModel ResultsProofs
  StoreModel StoreSpec StoreProofs GoodSectionsModel GoodSectionsSpec.
From Coq Require Import Sorted Permutation.
Open Scope Z_scope.

Lemma inc_sorted l : increasing_times l <-> StronglySorted Z.lt l.
Proof.
  induction l as [|a [|b r] IH]; [split; constructor| |].
  - split; intros _; [constructor; constructor|exact I].
  - cbn [increasing_times]. split.
    + intros [H1 H2]. apply IH in H2. constructor; [exact H2|]. constructor; [exact H1|].
      apply StronglySorted_inv in H2. destruct H2 as [_ H2]. revert H2. apply Forall_impl. intros; lia.
    + intros H. apply StronglySorted_inv in H. destruct H as [H1 H2]. split; [exact (Forall_inv H2)|]. apply IH, H1.
Qed.

Lemma sort_increasing l : StronglySorted Z.lt l -> sort_by (fun i => Some i) l = l.
Proof.
  induction l as [|a l IH]; intros H; [reflexivity|]. apply StronglySorted_inv in H. destruct H as [H1 H2].
  cbn [sort_by]. rewrite IH by exact H1. destruct l as [|b r]; [reflexivity|]. cbn [insert_by key_leb].
  apply Forall_inv in H2. replace (a <=? b) with true by lia. reflexivity.
Qed.

Section Raw.
Variable msp : Z.
Variable lk : bool.

Definition chk (x y : Z) : bool := y - x <=? msp.

(** Starts and ends as events, with the look-ahead check as one more check. *)
Fixpoint starts (p : bool) (x : Z) (l : list Z) : list Z :=
  match l with
  | [] => if negb p && lk then [x] else []
  | y :: r => (if chk x y && negb p then [x] else []) ++ starts (chk x y) y r
  end.
Fixpoint ends (p : bool) (x : Z) (l : list Z) : list Z :=
  match l with
  | [] => if p && negb lk then [x] else []
  | y :: r => (if negb (chk x y) && p then [x] else []) ++ ends (chk x y) y r
  end.

(** The frames as pairs; [o] is the start of the section that is open. *)
Fixpoint raw (o : option (option Z)) (x : Z) (l : list Z) : list (option Z * option Z) :=
  match l with
  | [] => match o, lk with
          | Some s, true => [(s, None)]
          | Some s, false => [(s, Some x)]
          | None, true => [(Some x, None)]
          | None, false => []
          end
  | y :: r => match o, chk x y with
              | Some s, true => raw (Some s) y r
              | Some s, false => (s, Some x) :: raw None y r
              | None, true => raw (Some (Some x)) y r
              | None, false => raw None y r
              end
  end.

Definition isS {A} (o : option A) : bool := match o with Some _ => true | None => false end.
Definition olist {A} (o : option A) : list A := match o with Some s => [s] | None => [] end.

Lemma raw_combine l : forall o x,
  let S := olist o ++ map Some (starts (isS o) x l) in
  let E := map Some (ends (isS o) x l) ++ (if lk then [None] else []) in
  length S = length E /\ combine S E = raw o x l.
Proof.
  induction l as [|y r IH]; intros o x; cbn [starts ends raw].
  - destruct o as [s|], lk; cbn; split; reflexivity.
  - destruct (chk x y) eqn:C; destruct o as [s|]; cbn [isS negb andb app olist map].
    + specialize (IH (Some s) y). cbn [isS olist app] in IH. exact IH.
    + specialize (IH (Some (Some x)) y). cbn [isS olist app] in IH. exact IH.
    + specialize (IH None y). cbn [isS olist app] in IH. destruct IH as [I1 I2].
      split; [cbn [length]; congruence|]. cbn [combine]. congruence.
    + specialize (IH None y). cbn [isS olist app] in IH. exact IH.
Qed.

Lemma events_ge l : forall p x, StronglySorted Z.lt (x :: l) ->
  Forall (fun z => x <= z) (starts p x l) /\ Forall (fun z => x <= z) (ends p x l).
Proof.
  induction l as [|y r IH]; intros p x H.
  - cbn. destruct p, lk; cbn; split; repeat (constructor; try lia).
  - apply StronglySorted_inv in H. destruct H as [H1 H2]. pose proof (Forall_inv H2) as Hxy.
    destruct (IH (chk x y) y H1) as [I1 I2]. cbn [starts ends].
    assert (W : forall L, Forall (fun z => y <= z) L -> Forall (fun z => x <= z) L)
      by (intros L; apply Forall_impl; intros; lia).
    apply W in I1. apply W in I2.
    split; apply Forall_app; (split; [|assumption]); destruct (_ && _); repeat (constructor; try lia).
Qed.

Definition open_of (E S : list Z) (p : bool) : bool :=
  match last_opt E, last_opt S with
  | None, Some _ => true
  | None, None => p
  | Some e, Some s => e <? s
  | Some _, None => false
  end.

Lemma last_opt_cons {A} (x : A) l : last_opt (x :: l) = match last_opt l with Some z => Some z | None => Some x end.
Proof. destruct l as [|y r]; [reflexivity|]. cbn [last_opt]. destruct (last_opt_some y r) as [z Hz]. cbn [last_opt] in Hz. rewrite Hz. reflexivity. Qed.

Lemma last_opt_in {A} (l : list A) z : last_opt l = Some z -> In z l.
Proof.
  induction l as [|a [|b r] IH]; [discriminate| |].
  - intros E; injection E as <-; left; reflexivity.
  - intros E. right. apply IH. exact E.
Qed.

Lemma open_is_look l : forall p x, StronglySorted Z.lt (x :: l) -> open_of (ends p x l) (starts p x l) p = lk.
Proof.
  induction l as [|y r IH]; intros p x H.
  - cbn. unfold open_of. destruct p, lk; reflexivity.
  - apply StronglySorted_inv in H. destruct H as [H1 H2]. pose proof (Forall_inv H2) as Hxy.
    specialize (IH (chk x y) y H1). destruct (events_ge r (chk x y) y H1) as [G1 G2].
    unfold open_of in *. cbn [starts ends].
    destruct (chk x y) eqn:C, p; cbn [negb andb app]; try exact IH; rewrite !last_opt_cons.
    + destruct (last_opt (ends true y r)) as [e|] eqn:E1, (last_opt (starts true y r)) as [s|] eqn:E2;
        try exact IH; rewrite <- IH.
      apply last_opt_in in E1. rewrite Forall_forall in G2. apply G2 in E1. lia.
    + destruct (last_opt (ends false y r)) as [e|] eqn:E1, (last_opt (starts false y r)) as [s|] eqn:E2;
        try exact IH; rewrite <- IH.
      apply last_opt_in in E2. rewrite Forall_forall in G1. apply G1 in E2. lia.
Qed.
End Raw.

(** The code's lists of starts and ends. *)
Lemma diffs_cons x y l : diffs (x :: y :: l) = (y - x) :: diffs (y :: l).
Proof. reflexivity. Qed.

Lemma code_events msp lk l : forall p x y,
  let cs := map (fun d => d <=? msp) (diffs (x :: y :: l)) in
  let idx := x :: y :: l in
  forall c z, last_opt cs = Some c -> last_opt idx = Some z ->
  at_transition 1 idx (transitions p cs) ++ (if negb c && lk then [z] else []) = starts msp lk p x (y :: l) /\
  at_transition (-1) idx (transitions p cs) ++ (if c && negb lk then [z] else []) = ends msp lk p x (y :: l).
Proof.
  induction l as [|w r IH]; intros p x y cs idx c z Hc Hz.
  - cbn in Hc, Hz. injection Hc as <-. injection Hz as <-. cbn [starts ends]. unfold at_transition, chk. subst cs idx.
    cbn. destruct (y - x <=? msp), p, lk; cbn; split; reflexivity.
  - specialize (IH (chk msp x y) y w c z). subst cs idx. rewrite diffs_cons in Hc. cbn [map] in Hc.
    rewrite last_opt_cons in Hc. rewrite last_opt_cons in Hz.
    assert (Hc' : last_opt (map (fun d => d <=? msp) (diffs (y :: w :: r))) = Some c).
    { rewrite diffs_cons in *. cbn [map] in *. rewrite last_opt_cons in *. destruct (last_opt _); exact Hc. }
    assert (Hz' : last_opt (y :: w :: r) = Some z).
    { rewrite last_opt_cons in *. destruct (last_opt (w :: r)); exact Hz. }
    destruct (IH Hc' Hz') as [I1 I2]. rewrite diffs_cons. cbn [map transitions].
    change (starts msp lk p x (y :: w :: r)) with ((if chk msp x y && negb p then [x] else []) ++ starts msp lk (chk msp x y) y (w :: r)).
    change (ends msp lk p x (y :: w :: r)) with ((if negb (chk msp x y) && p then [x] else []) ++ ends msp lk (chk msp x y) y (w :: r)).
    rewrite <- I1, <- I2. unfold at_transition. cbn [combine filter]. cbn [snd].
    fold (chk msp x y). destruct (chk msp x y), p; cbn; split; reflexivity.
Qed.

Definition Frame (p : option Z * option Z) : tf := mkTF (fst p) (snd p) true false false.
Definition wf (p : option Z * option Z) : Prop := forall a b, p = (Some a, Some b) -> a < b.

Lemma mk_Frame p : wf p -> mk (fst p) (snd p) = Ok (Frame p).
Proof.
  destruct p as [[a|] [b|]]; intros H; cbn; try reflexivity. specialize (H _ _ eq_refl).
  unfold mk, set_start, set_end; cbn. replace (b <=? a) with false by lia. reflexivity.
Qed.

Definition start_before_o (msp : Z) (o : option (option Z)) (x : Z) (l : list Z) : Prop :=
  match o with
  | Some (Some s) => s < x \/ (s <= x /\ match l with [] => False | z :: _ => chk msp x z = true end)
  | _ => True
  end.

Lemma raw_wf msp lk l : forall o x, StronglySorted Z.lt (x :: l) -> start_before_o msp o x l ->
  Forall wf (raw msp lk o x l).
Proof.
  induction l as [|y r IH]; intros o x H Ho.
  - cbn. destruct o as [[s|]|], lk; repeat constructor; intros a b E; try discriminate.
    injection E as <- <-. cbn in Ho. lia.
  - apply StronglySorted_inv in H. destruct H as [H1 H2]. pose proof (Forall_inv H2) as Hxy. cbn [raw].
    destruct o as [s|]; destruct (chk msp x y) eqn:C.
    + apply IH; [exact H1|]. destruct s as [s|]; [|exact I]. cbn in Ho. left. lia.
    + constructor; [|apply IH; [exact H1|exact I]]. intros a b E. injection E as -> <-. cbn in Ho. rewrite C in Ho.
      destruct Ho as [Ho|[_ Ho]]; [exact Ho|discriminate].
    + apply IH; [exact H1|]. left. lia.
    + apply IH; [exact H1|exact I].
Qed.

Lemma keep_wf l : Forall wf l -> filter keep_section l = l.
Proof.
  intros H. apply filter_all. revert H. apply Forall_impl. intros [[a|] [b|]] H; try reflexivity.
  specialize (H _ _ eq_refl). cbn. lia.
Qed.

Lemma mapM_Frame l : Forall wf l -> mapM (fun p => mk (fst p) (snd p)) l = Ok (map Frame l).
Proof.
  induction 1 as [|p l Hp Hl IH]; [reflexivity|]. cbn [mapM]. rewrite mk_Frame by exact Hp. cbn [bind]. rewrite IH. reflexivity.
Qed.

Lemma valid_index_spec df index : valid_times df index -> increasing_times index -> valid_index df = index.
Proof.
  intros (m & Hm & ->) Hi. unfold valid_index.
  apply (is_filter_filter _ snd) in Hm; [|intros x; reflexivity]. subst m.
  apply sort_increasing, inc_sorted, Hi.
Qed.

Lemma look_gap_spec msp last look b : continues msp last look b ->
  exists g, look_gap look last = Ok g /\
    match g with None => b = false | Some d => b = (d <=? msp) end.
Proof.
  destruct look as [l|]; cbn [continues].
  - intros [[-> ->]|(pre & x & post & -> & Hp & Hb)]; [exists None; split; reflexivity|].
    exists (Some (x - last)). split.
    + assert (E : filter snd (pre ++ (x, true) :: post) = (x, true) :: filter snd post).
      { rewrite filter_app. rewrite (filter_none snd pre) by exact Hp. reflexivity. }
      unfold look_gap. rewrite E. destruct pre; reflexivity.
    + destruct b; [|destruct (x - last <=? msp) eqn:E; [|reflexivity]].
      * assert (x - last <= msp) by (apply Hb; reflexivity). lia.
      * assert (false = true) by (apply Hb; lia). discriminate.
  - intros ->. exists None. split; reflexivity.
Qed.

Lemma good_sections_raw df msp look prev b x y l z : valid_times df (x :: y :: l) ->
  increasing_times (x :: y :: l) -> last_opt (x :: y :: l) = Some z -> continues msp z look b ->
  get_good_sections df msp look prev =
    Ok (map Frame (raw msp b (if prev then Some None else None) x (y :: l))).
Proof.
  intros Hv Hi Hz Hc. pose proof (valid_index_spec _ _ Hv Hi) as Ev. apply inc_sorted in Hi.
  unfold get_good_sections. rewrite Ev. cbn [length Nat.ltb Nat.leb].
  destruct (last_opt_some (chk msp x y) (map (fun d => d <=? msp) (diffs (y :: l)))) as [c Hcc].
  assert (Hcs : last_opt (map (fun d => d <=? msp) (diffs (x :: y :: l))) = Some c) by exact Hcc.
  rewrite Hcs, Hz. destruct (look_gap_spec _ _ _ _ Hc) as (g & -> & Hg). cbn [bind].
  destruct (code_events msp b l prev x y c z Hcs Hz) as [ES EE].
  set (S0 := at_transition 1 (x :: y :: l) _) in *. set (E0 := at_transition (-1) (x :: y :: l) _) in *.
  assert (P : (if c then
         match g with
         | Some g => if g >? msp then (S0, E0 ++ [z]) else (S0, E0)
         | None => (S0, E0 ++ [z])
         end
       else
         match g with
         | Some g => if g <=? msp then (S0 ++ [z], E0) else (S0, E0)
         | None => (S0, E0)
         end) = (starts msp b prev x (y :: l), ends msp b prev x (y :: l))).
  { rewrite <- ES, <- EE. destruct c, g as [g|]; rewrite ?Hg; cbn [negb andb]; rewrite ?app_nil_r; try reflexivity.
    - destruct (g >? msp) eqn:G; [replace (g <=? msp) with false by lia|replace (g <=? msp) with true by lia]; cbn [negb]; rewrite ?app_nil_r; reflexivity.
    - destruct (g <=? msp); cbn [negb]; rewrite ?app_nil_r; reflexivity. }
  rewrite P. clear P ES EE S0 E0. cbv zeta.
  pose proof (open_is_look msp b (y :: l) prev x Hi) as Ho. unfold open_of in Ho. rewrite Ho.
  set (o := if prev then Some None else None : option (option Z)).
  assert (Hp : prev = isS o) by (destruct prev; reflexivity).
  assert (Hs : (if prev then [None] else []) = olist o) by (destruct prev; reflexivity).
  rewrite Hs. rewrite Hp. destruct (raw_combine msp b (y :: l) o x) as [L C]. rewrite L, Nat.eqb_refl. cbn [negb].
  rewrite C. assert (W : Forall wf (raw msp b o x (y :: l))).
  { apply raw_wf; [exact Hi|]. subst o. destruct prev; exact I. }
  rewrite keep_wf by exact W. apply mapM_Frame, W.
Qed.

(** ** Runs *)
Fixpoint runs (msp : Z) (x : Z) (l : list Z) : list (list Z) :=
  match l with
  | [] => [[x]]
  | y :: r => if chk msp x y then match runs msp y r with q :: qs => (x :: q) :: qs | [] => [[x]] end
              else [x] :: runs msp y r
  end.

Lemma runs_cons msp l : forall x, exists q qs, runs msp x l = (x :: q) :: qs.
Proof.
  induction l as [|y r IH]; intros x; [exists [], []; reflexivity|]. cbn [runs].
  destruct (IH y) as (q & qs & E). destruct (chk msp x y).
  - rewrite E. exists (y :: q), qs. reflexivity.
  - eexists _, _. reflexivity.
Qed.

Lemma last_of_cons_cons a b l x : last_of (a :: b :: l) x <-> last_of (b :: l) x.
Proof.
  split; intros [r E].
  - destruct r as [|c r]; [discriminate|]. injection E as _ E. exists r. exact E.
  - exists (a :: r). rewrite E. reflexivity.
Qed.

Lemma last_of_single a x : last_of [a] x -> x = a.
Proof. intros [r E]. destruct r as [|c [|d r]]; [injection E; auto|discriminate|discriminate]. Qed.

Lemma runs_are_runs msp l : forall x, runs_of msp (x :: l) (runs msp x l).
Proof.
  induction l as [|y r IH]; intros x.
  - split; [reflexivity|]. split; [|exact I]. constructor; [split; [discriminate|exact I]|constructor].
  - destruct (IH y) as (I1 & I2 & I3). cbn [runs]. destruct (runs_cons msp r y) as (q & qs & E).
    rewrite E in *. destruct (chk msp x y) eqn:C; unfold chk in C.
    + split; [cbn [concat app] in *; congruence|]. split.
      * apply Forall_cons_iff in I2. destruct I2 as [[_ J] I2]. constructor; [|exact I2].
        split; [discriminate|]. split; [lia|exact J].
      * destruct qs as [|q' qs]; [exact I|]. cbn [separated] in *. destruct I3 as [J I3]. split; [|exact I3].
        intros a b Ha Hb. exact (J a b (proj1 (last_of_cons_cons x y q a) Ha) Hb).
    + split; [cbn [concat app] in *; congruence|]. split.
      * constructor; [split; [discriminate|exact I]|exact I2].
      * split; [|exact I3]. intros a b Ha [r' Hb]. apply last_of_single in Ha. injection Hb as <- _. lia.
Qed.

Lemma runs_unique msp rs : forall rs' index, runs_of msp index rs -> runs_of msp index rs' -> rs = rs'.
Proof.
  assert (F : forall r a q b L M, gap_free msp r -> gap_free msp q ->
     (forall x y, last_of r x -> first_of (concat L) y -> y - x > msp) ->
     (forall x y, last_of q x -> first_of (concat M) y -> y - x > msp) ->
     r = a :: b -> forall q0, q = a :: q0 -> r ++ concat L = q ++ concat M -> r = q).
  { induction r as [|a r IH]; intros a0 q b L M Gr Gq Sr Sq Er q0 Eq E; [discriminate|].
    injection Er as -> ->. subst q. destruct b as [|b0 b].
    - destruct q0 as [|c q0]; [reflexivity|]. cbn in E. injection E as E. cbn [gap_free] in Gq.
      exfalso. assert (c - a0 > msp); [|lia]. apply Sr; [exists []; reflexivity|]. rewrite E. eexists. reflexivity.
    - destruct q0 as [|c q0].
      + cbn in E. injection E as E. cbn [gap_free] in Gr.
        exfalso. assert (b0 - a0 > msp); [|lia]. apply Sq; [exists []; reflexivity|]. rewrite <- E. eexists. reflexivity.
      + cbn [app] in E. injection E as -> E. f_equal.
        cbn [gap_free] in Gr, Gq. refine (IH c (c :: q0) b L M (proj2 Gr) (proj2 Gq) _ _ eq_refl q0 eq_refl _).
        * intros x y Hx. apply Sr. exact (proj2 (last_of_cons_cons _ _ _ _) Hx).
        * intros x y Hx. apply Sq. exact (proj2 (last_of_cons_cons _ _ _ _) Hx).
        * cbn [app]. congruence. }
  assert (Sep : forall r rs, Forall (fun r => r <> [] /\ gap_free msp r) rs -> separated msp (r :: rs) ->
     (forall x y, last_of r x -> first_of (concat rs) y -> y - x > msp) /\ separated msp rs).
  { intros r rest HF HS. destruct rest as [|q rest]; [split; [|exact I]; intros x y _ [t E]; discriminate|].
    cbn [separated] in HS. destruct HS as [H1 H2]. split; [|exact H2]. intros x y Hx [t E]. apply H1; [exact Hx|].
    apply Forall_inv in HF. destruct HF as [Hn _]. destruct q as [|q0 q]; [contradiction|]. injection E as -> _. eexists. reflexivity. }
  induction rs as [|r rs IH]; intros rs' index (H1 & H2 & H3) (K1 & K2 & K3).
  - cbn in H1. subst index. destruct rs' as [|r' rs']; [reflexivity|]. apply Forall_inv in K2. destruct K2 as [Hn _].
    destruct r'; [contradiction|discriminate].
  - destruct rs' as [|r' rs'].
    + cbn in K1. subst index. apply Forall_inv in H2. destruct H2 as [Hn _]. destruct r; [contradiction|discriminate].
    + apply Forall_cons_iff in H2. apply Forall_cons_iff in K2. destruct H2 as [[Hn Hg] H2], K2 as [[Kn Kg] K2].
      apply Sep in H3; [|exact H2]. apply Sep in K3; [|exact K2]. destruct H3 as [H3 H4], K3 as [K3 K4].
      cbn [concat] in H1, K1. destruct r as [|a r]; [contradiction|]. destruct r' as [|a' r']; [contradiction|].
      assert (a = a') by (rewrite <- K1 in H1; cbn in H1; congruence). subst a'.
      assert (E : a :: r = a :: r').
      { apply (F _ a _ r rs rs' Hg Kg H3 K3 eq_refl r' eq_refl). congruence. }
      rewrite E. f_equal. apply (IH _ (concat rs)); [split; [reflexivity|split; assumption]|].
      split; [|split; assumption]. rewrite E in H1. rewrite <- K1 in H1. apply app_inv_head in H1. symmetry; exact H1.
Qed.

(** Frames of runs, computed. *)
Section Fr.
Variable lk : bool.
Definition run_end (r : list Z) (rs : list (list Z)) : option Z :=
  match rs with [] => if lk then None else last_opt r | _ => last_opt r end.
Definition cont_of (rs : list (list Z)) : bool := match rs with [] => lk | _ => false end.
Definition framed (r : list Z) (rs : list (list Z)) : bool := Nat.leb 2 (length r) || cont_of rs.
Definition hd_opt (r : list Z) : option Z := match r with [] => None | x :: _ => Some x end.
Fixpoint fr (rs : list (list Z)) : list (option Z * option Z) :=
  match rs with
  | [] => []
  | r :: rest => (if framed r rest then [(hd_opt r, run_end r rest)] else []) ++ fr rest
  end.

Lemma raw_runs msp l : forall x,
  (forall s, raw msp lk (Some s) x l = match runs msp x l with r :: rs => (s, run_end r rs) :: fr rs | [] => [] end) /\
  raw msp lk None x l = fr (runs msp x l).
Proof.
  induction l as [|y r IH]; intros x.
  - cbn. unfold framed, run_end, cont_of. destruct lk; split; reflexivity.
  - destruct (IH y) as [I1 I2]. destruct (runs_cons msp r y) as (q & qs & E). cbn [raw runs].
    destruct (chk msp x y) eqn:C.
    + rewrite E in *. split.
      * intros s. rewrite I1. reflexivity.
      * rewrite I1. reflexivity.
    + rewrite E in *. split.
      * intros s. rewrite I2. unfold run_end. reflexivity.
      * rewrite I2. cbn [fr]. reflexivity.
Qed.

Lemma last_opt_last_of l x : last_opt l = Some x <-> last_of l x.
Proof.
  split; [|intros [r ->]; apply last_opt_snoc].
  induction l as [|a [|b r] IH]; [discriminate| |].
  - intros E; injection E as <-. exists []. reflexivity.
  - intros E. destruct (IH E) as [t Ht]. exists (a :: t). rewrite Ht. reflexivity.
Qed.

Lemma frame_run_closed o cont (r : list Z) : r <> [] ->
  frame_of_run o cont r (Frame (if o then None else hd_opt r, if cont then None else last_opt r)).
Proof.
  intros Hr. unfold frame_of_run, Frame. cbn. split; [reflexivity|]. split; [reflexivity|]. split; [reflexivity|].
  destruct r as [|x r]; [contradiction|]. split.
  - destruct o; [reflexivity|]. exists x. split; [eexists; reflexivity|reflexivity].
  - destruct cont; [reflexivity|]. destruct (last_opt_some x r) as [z Hz]. exists z. split; [apply last_opt_last_of, Hz|].
    exact Hz.
Qed.

Lemma run_end_cont r rs : run_end r rs = if cont_of rs then None else last_opt r.
Proof. unfold run_end, cont_of. destruct rs; reflexivity. Qed.

Lemma fr_frames rs : Forall (fun r => r <> []) rs -> frames_of_runs lk false rs (map Frame (fr rs)).
Proof.
  induction 1 as [|r rs Hr Hrs IH]; [constructor|]. cbn [fr]. destruct (framed r rs) eqn:E.
  - cbn [app map]. constructor; [|rewrite run_end_cont; apply (frame_run_closed false); exact Hr|exact IH].
    unfold framed in E. apply orb_true_iff in E. destruct E as [E|E]; [left; apply Nat.leb_le; exact E|].
    right. right. unfold cont_of in E. destruct rs; [split; [reflexivity|exact E]|discriminate].
  - cbn [app]. unfold framed in E. apply orb_false_iff in E. destruct E as [E1 E2]. constructor; [| |exact IH].
    + destruct r as [|a [|b r]]; [contradiction|reflexivity|discriminate].
    + intros ->. exact E2.
Qed.
End Fr.

Lemma frames_unique lk o rs ts : frames_of_runs lk o rs ts -> forall ts', frames_of_runs lk o rs ts' -> ts = ts'.
Proof.
  assert (U : forall o c r t t', frame_of_run o c r t -> frame_of_run o c r t' -> t = t').
  { intros o' c r [s e en em inc] [s' e' en' em' inc'] (H1 & H2 & H3 & H4 & H5) (K1 & K2 & K3 & K4 & K5).
    unfold tf_start, tf_end in *. cbn in *. subst. f_equal.
    - destruct o'; [congruence|]. destruct H4 as (x & [r1 ->] & ->), K4 as (y & [r2 E] & ->). congruence.
    - destruct c; [congruence|]. destruct H5 as (x & L1 & ->), K5 as (y & L2 & ->).
      apply last_opt_last_of in L1. apply last_opt_last_of in L2. congruence. }
  induction 1 as [o|o r rs t ts Hc Hf Hr IH|r rs ts Hl Hc Hr IH]; intros ts' H'; inversion H' as [|o2 r2 rs2 t2 ts2 Hc2 Hf2 Hr2|r2 rs2 ts2 Hl2 Hc2 Hr2]; subst.
  - reflexivity.
  - f_equal; [exact (U _ _ _ _ _ Hf Hf2)|]. apply IH. exact Hr2.
  - exfalso. destruct Hc as [Hc|[Hc|[-> ->]]]; [lia|discriminate|]. specialize (Hc2 eq_refl). discriminate.
  - exfalso. destruct Hc2 as [Hc2|[Hc2|[-> ->]]]; [lia|discriminate|]. specialize (Hc eq_refl). discriminate.
  - apply IH. exact Hr2.
Qed.

(** The main statement for one chunk. *)
Lemma good_sections_exact df index msp look prev b last rs :
  valid_times df index -> increasing_times index -> (2 <= length index)%nat -> last_of index last ->
  continues msp last look b -> runs_of msp index rs ->
  exists ts, get_good_sections df msp look prev = Ok ts /\ frames_of_runs b prev rs ts.
Proof.
  intros Hv Hi Hl Hz Hc Hr. destruct index as [|x [|y l]]; [cbn in Hl; lia|cbn in Hl; lia|].
  apply last_opt_last_of in Hz. eexists. split; [exact (good_sections_raw _ _ _ prev _ _ _ _ _ Hv Hi Hz Hc)|].
  rewrite (runs_unique _ _ _ _ Hr (runs_are_runs msp (y :: l) x)).
  destruct (raw_runs b msp (y :: l) x) as [R1 R2].
  assert (NE : Forall (fun r => r <> []) (runs msp x (y :: l))).
  { destruct (runs_are_runs msp (y :: l) x) as (_ & F & _). revert F. apply Forall_impl. tauto. }
  destruct prev.
  - rewrite R1. destruct (runs_cons msp (y :: l) x) as (q & qs & E). rewrite E in *. cbn [map].
    constructor; [right; left; reflexivity| |].
    + rewrite run_end_cont. apply (frame_run_closed true). discriminate.
    + apply fr_frames. exact (Forall_inv_tail NE).
  - rewrite R2. apply fr_frames, NE.
Qed.

Lemma good_sections_short df msp look prev index : valid_times df index -> (length index < 2)%nat ->
  get_good_sections df msp look prev = Ok [].
Proof.
  intros (m & Hm & ->) Hl. unfold get_good_sections, valid_index.
  apply (is_filter_filter _ snd) in Hm; [|intros x; reflexivity]. subst m.
  replace (length (sort_by (fun i => Some i) (map fst (filter snd df)))) with (length (map fst (filter snd df))).
  - apply Nat.ltb_lt in Hl. rewrite Hl. reflexivity.
  - symmetry. apply Permutation_length, sort_by_perm.
Qed.

Lemma runs_exist msp index : index <> [] -> exists rs, runs_of msp index rs.
Proof. destruct index as [|x l]; [contradiction|]. intros _. exists (runs msp x l). apply runs_are_runs. Qed.

(** A look-ahead with rows but no valid row makes the call fail. *)
Lemma good_sections_nan_look df msp l prev index : valid_times df index -> increasing_times index -> (2 <= length index)%nat ->
  l <> [] -> Forall (fun r => snd r = false) l -> get_good_sections df msp (Some l) prev = Err IndexError.
Proof.
  intros Hv Hi Hl Hn HF. pose proof (valid_index_spec _ _ Hv Hi) as Ev. unfold get_good_sections. rewrite Ev.
  destruct index as [|x [|y r]]; [cbn in Hl; lia|cbn in Hl; lia|]. cbn [length Nat.ltb Nat.leb].
  destruct (last_opt_some x (y :: r)) as [z ->].
  destruct (last_opt_some (chk msp x y) (map (fun d => d <=? msp) (diffs (y :: r)))) as [c Hcc].
  change (last_opt (map (fun d => d <=? msp) (diffs (x :: y :: r)))) with (last_opt (chk msp x y :: map (fun d => d <=? msp) (diffs (y :: r)))).
  rewrite Hcc. unfold look_gap. rewrite (filter_none snd l) by exact HF. destruct l; [contradiction|reflexivity].
Qed.

(** Unsorted input: the sections are those of the sorted index. *)
Lemma valid_index_perm df df' : Permutation df df' -> NoDup (map fst df) -> valid_index df = valid_index df'.
Proof.
  intros Hp Hn. unfold valid_index. apply (sorted_unique (fun i => Some i)).
  - apply sort_by_sorted.
  - apply sort_by_sorted.
  - etransitivity; [apply sort_by_perm|]. etransitivity; [|symmetry; apply sort_by_perm].
    apply Permutation_map. clear Hn. induction Hp; cbn; try (destruct (snd x); [constructor|]; assumption).
    + constructor.
    + destruct (snd x), (snd y); try reflexivity; constructor.
    + etransitivity; eassumption.
  - assert (NoDup (map fst (filter snd df))).
    { clear Hp. induction df as [|a df IH]; [constructor|]. cbn in Hn |- *. apply NoDup_cons_iff in Hn. destruct Hn as [N1 N2].
      destruct (snd a); [|exact (IH N2)]. cbn. constructor; [|exact (IH N2)]. intros HI. apply N1.
      apply in_map_iff in HI. destruct HI as (q & E & HI). apply filter_In in HI. apply in_map_iff. exists q. tauto. }
    assert (N2 : NoDup (sort_by (fun i => Some i) (map fst (filter snd df)))).
    { eapply Permutation_NoDup; [|exact H]. symmetry. apply sort_by_perm. }
    apply FinFun.Injective_map_NoDup; [|exact N2]. intros a b E. congruence.
Qed.

Lemma good_sections_order df df' msp look prev : Permutation df df' -> NoDup (map fst df) ->
  get_good_sections df msp look prev = get_good_sections df' msp look prev.
Proof. intros Hp Hn. unfold get_good_sections. rewrite (valid_index_perm _ _ Hp Hn). reflexivity. Qed.
