(** Proofs about good sections computed chunk by chunk. *)
From Verif Require Import Base TimeFrameModel TimeFrameSpec TimeFrameProofs SortLib ResultsModel ResultsSpec ResultsProofs
  StoreModel StoreSpec StoreProofs StoreProofs2 GoodSectionsModel GoodSectionsSpec GoodSectionsProofs.
From Coq Require Import Sorted Permutation.
Open Scope Z_scope.

(** ** The merging law *)

Definition pend (o : option (option Z)) : list (option Z * option Z) :=
  match o with Some s => [(s, None)] | None => [] end.
Definition closed (p : option Z * option Z) : Prop := snd p <> None.


Lemma raw_split msp f l : forall f1 o x y z T, last_opt (x :: l) = Some y -> f1 = chk msp y z ->
  StronglySorted Z.lt (x :: l) -> (forall v, o = Some (Some v) -> v <= x) ->
  exists P o', isS o' = f1 /\ raw msp f1 o x l = P ++ pend o' /\
    raw msp f o x (l ++ z :: T) = P ++ raw msp f o' z T /\ Forall closed P /\
    (forall v, o' = Some (Some v) -> v <= y).
Proof.
  induction l as [|w r IH]; intros f1 o x y z T Hy Hf Hs Ho.
  - cbn in Hy. injection Hy as <-. cbn [app raw]. rewrite <- Hf.
    destruct o as [s|], f1.
    + exists [], (Some s). split; [reflexivity|]. split; [reflexivity|]. split; [reflexivity|]. split; [constructor|]. exact Ho.
    + exists [(s, Some x)], None. split; [reflexivity|]. split; [reflexivity|]. split; [reflexivity|].
      split; [constructor; [discriminate|constructor]|discriminate].
    + exists [], (Some (Some x)). split; [reflexivity|]. split; [reflexivity|]. split; [reflexivity|]. split; [constructor|].
      intros v E. injection E as <-. lia.
    + exists [], None. split; [reflexivity|]. split; [reflexivity|]. split; [reflexivity|]. split; [constructor|discriminate].
  - apply StronglySorted_inv in Hs. destruct Hs as [H1 H2]. pose proof (Forall_inv H2) as Hxw.
    assert (Hy' : last_opt (w :: r) = Some y) by exact Hy. cbn [app raw].
    destruct o as [s|]; destruct (chk msp x w) eqn:C.
    + apply IH; try assumption. intros v E. specialize (Ho v E). lia.
    + destruct (IH f1 None w y z T Hy' Hf H1) as (P & o' & I1 & I2 & I3 & I4 & I5); [discriminate|].
      exists ((s, Some x) :: P), o'. rewrite I2, I3. split; [exact I1|]. split; [reflexivity|]. split; [reflexivity|].
      split; [constructor; [discriminate|exact I4]|exact I5].
    + apply IH; try assumption. intros v E. injection E as <-. lia.
    + apply IH; try assumption. discriminate.
Qed.

(** Replacing the start of the section that is open at the beginning. *)
Lemma raw_retarget msp f l : forall x, exists e R, forall s, raw msp f (Some s) x l = (s, e) :: R.
Proof.
  induction l as [|y r IH]; intros x; cbn [raw].
  - destruct f; eexists _, _; intros s; reflexivity.
  - destruct (chk msp x y); [apply IH|]. eexists _, _. intros s. reflexivity.
Qed.

(** Pieces of an index, each with the flag "goes on within [msp]". *)
Inductive chunked (msp : Z) : list (list Z * bool) -> list Z -> bool -> Prop :=
  | ck_one x l f : l <> [] -> chunked msp [(x :: l, f)] (x :: l) f
  | ck_shared x l y z f1 T ps f : l <> [] -> last_opt (x :: l) = Some y -> f1 = chk msp y z ->
      chunked msp ps (y :: z :: T) f -> chunked msp ((x :: l, f1) :: ps) (x :: l ++ z :: T) f
  | ck_apart x l y z f1 T ps f : l <> [] -> last_opt (x :: l) = Some y -> f1 = chk msp y z ->
      chunked msp ps (z :: T) f -> chunked msp ((x :: l, f1) :: ps) (x :: l ++ z :: T) f.

Definition rows_of_piece (msp : Z) (prev : bool) (t : tf) (p : list Z * bool) : table (list tf) :=
  match fst p with
  | [] => []
  | x :: l => match raw msp (snd p) (if prev then Some None else None) x l with
              | [] => []
              | R => [mkRow (tf_start t) (tf_end t) (map Frame R)]
              end
  end.

Fixpoint rows_of_pieces (msp : Z) (prev : bool) (ts : list tf) (ps : list (list Z * bool)) : table (list tf) :=
  match ts, ps with
  | t :: ts', p :: ps' => rows_of_piece msp prev t p ++ rows_of_pieces msp (snd p) ts' ps'
  | _, _ => []
  end.

Lemma all_sections_app a b : all_sections (a ++ b) = all_sections a ++ all_sections b.
Proof. unfold all_sections. rewrite map_app, concat_app. reflexivity. Qed.

Lemma set_last_app {A} (l : list A) x y : set_last (l ++ [x]) y = l ++ [y].
Proof. induction l as [|a l IH]; [reflexivity|]. cbn [app]. destruct (l ++ [x]) eqn:E; [destruct l; discriminate|]. cbn [set_last] in *. rewrite IH. reflexivity. Qed.

Lemma set_last_section_spec done : forall S x y, all_sections done = S ++ [x] ->
  all_sections (set_last_section done y) = S ++ [y].
Proof.
  induction done as [|r rest IH]; intros S x y E; [destruct S; discriminate|].
  cbn [set_last_section]. unfold all_sections in E. cbn [map concat] in E. fold (all_sections rest) in E.
  destruct (all_sections rest) as [|a L] eqn:EA.
  - rewrite app_nil_r in E. unfold all_sections. cbn [map concat r_val]. fold (all_sections rest). rewrite EA, app_nil_r, E.
    apply set_last_app.
  - destruct (@exists_last _ (a :: L)) as (L' & b & EL); [discriminate|]. rewrite EL, app_assoc in E.
    apply app_inj_tail in E. destruct E as [E1 E2]. subst b. rewrite EL in IH. specialize (IH L' x y eq_refl).
    unfold all_sections. cbn [map concat]. fold (all_sections (set_last_section rest y)). rewrite IH, <- E1.
    apply app_assoc.
Qed.

Lemma last_closed_end S o : Forall closed S ->
  match last_opt (map Frame (S ++ pend o)) with
  | None => S = [] /\ o = None
  | Some t => (exists v, tf_end t = Some v) /\ o = None \/ (exists s, o = Some s /\ t = Frame (s, None))
  end.
Proof.
  intros H. destruct o as [s|]; cbn [pend].
  - rewrite map_app. cbn [map]. rewrite last_opt_snoc. right. exists s. split; reflexivity.
  - rewrite app_nil_r. destruct (last_opt (map Frame S)) as [t|] eqn:E.
    + left. split; [|reflexivity]. rewrite last_opt_map in E. destruct (last_opt S) as [p|] eqn:E2; [|discriminate].
      injection E as <-. apply last_opt_in in E2. rewrite Forall_forall in H. specialize (H _ E2). unfold closed in H.
      destruct p as [a [b|]]; [|exfalso; apply H; reflexivity]. exists b. reflexivity.
    + split; [|reflexivity]. destruct S as [|p S]; [reflexivity|]. destruct (last_opt_some (Frame p) (map Frame S)) as [z Hz].
      cbn [map] in E. congruence.
Qed.


Lemma combine_piece msp t s0 s1 o x l f1 done S ep : 0 <= msp -> bounded t s0 s1 ->
  StronglySorted Z.lt (x :: l) -> start_before_o msp o x l ->
  all_sections done = map Frame (S ++ pend o) -> Forall closed S -> (isS o = true -> ep = Some s0) ->
  exists done' ep',
    (forall rest, combine_loop msp done ep (rows_of_piece msp (isS o) t (x :: l, f1) ++ rest) = combine_loop msp done' ep' rest) /\
    all_sections done' = map Frame (S ++ raw msp f1 o x l) /\ (f1 = true -> ep' = Some s1).
Proof.
  intros Hm (Ht1 & Ht2 & Ht3 & Ht4) HS Hb Hd HSc He. unfold rows_of_piece. cbn [fst snd].
  pose proof (last_closed_end S o HSc) as HL. rewrite <- Hd in HL.
  destruct o as [s|]; cbn [isS] in *.
  - destruct (raw_retarget msp f1 l x) as (e1 & R & ER). rewrite !ER.
    rewrite (He eq_refl), Ht1, Ht2. cbn [pend] in Hd. rewrite map_app in Hd. cbn [map] in Hd.
    rewrite Hd, last_opt_snoc in HL. 
    assert (HE : set_end (Frame (s, None)) e1 = Ok (Frame (s, e1))).
    { pose proof (raw_wf msp f1 l (Some s) x HS Hb) as W. rewrite ER in W. apply Forall_inv in W.
      unfold Frame, set_end, tf_start; cbn. destruct e1 as [v|]; [|reflexivity]. destruct s as [a|]; [|reflexivity].
      specialize (W _ _ eq_refl). replace (v <=? a) with false by lia. reflexivity. }
    exists (set_last_section done (Frame (s, e1)) ++ [mkRow (Some s0) (Some s1) (map Frame R)]), (Some s1).
    split; [|split; [|intros _; reflexivity]].
    + intros rest. cbn [app combine_loop combine_step r_start r_end r_val map tf_start Frame fst tf_enabled tf_start_].
      unfold rows_adjacent. replace ((s0 - msp <=? s0) && (s0 <=? s0)) with true by lia.
      unfold combine_step. cbn. unfold rows_adjacent. replace ((s0 - msp <=? s0) && (s0 <=? s0)) with true by lia.
      rewrite Hd, last_opt_snoc. cbn.
      change (mkTF s None true false false) with (Frame (s, None)).
      unfold tf_end. cbn. rewrite HE. reflexivity.
    + rewrite all_sections_app. rewrite (set_last_section_spec _ _ _ (Frame (s, e1)) Hd).
      unfold all_sections. cbn [map concat r_val]. rewrite app_nil_r, map_app. cbn [map]. rewrite <- app_assoc. reflexivity.
  - cbn [pend] in Hd. rewrite app_nil_r in Hd.
    destruct (raw msp f1 None x l) as [|p R] eqn:ER.
    + exists done, ep. split; [intros rest; reflexivity|]. split; [rewrite app_nil_r; exact Hd|].
      intros ->. exfalso. clear -ER. revert x ER. induction l as [|y r IH]; intros x; cbn; [discriminate|].
      destruct (chk msp x y); [|apply IH]. destruct (raw_retarget msp true r y) as (e1 & R & E). rewrite E. discriminate.
    + exists (done ++ [mkRow (Some s0) (Some s1) (map Frame (p :: R))]), (Some s1).
      split; [|split; [|intros _; reflexivity]].
      * intros rest. cbn [app combine_loop]. rewrite Ht1, Ht2.
        assert (ES : combine_step msp done ep (mkRow (Some s0) (Some s1) (map Frame (p :: R))) = Ok (done, map Frame (p :: R))).
        { unfold combine_step. destruct ep as [ep|]; [|reflexivity]. cbn [r_start r_val map].
          assert (Hp : exists v, fst p = Some v).
          { clear -ER. revert x ER. induction l as [|y r IH]; intros x; cbn.
            - destruct f1; [|discriminate]. intros E; injection E as <- _. eexists; reflexivity.
            - destruct (chk msp x y); [|apply IH]. destruct (raw_retarget msp f1 r y) as (e1 & R' & E). rewrite E.
              intros E'; injection E' as <- _. eexists. reflexivity. }
          destruct Hp as [v Hp]. assert (Hts : tf_start (Frame p) = Some v) by exact Hp. cbv zeta. rewrite Hts.
          assert (D : match last_opt (all_sections done) with
                      | Some l0 => match tf_end l0 with
                                   | Some _ => done
                                   | None => match set_end l0 (Some ep) with
                                             | Ok l' => set_last_section done l'
                                             | Err _ => done
                                             end
                                   end
                      | None => done
                      end = done).
          { destruct (last_opt (all_sections done)) as [q|] eqn:EL; [|reflexivity].
            destruct HL as [[(w & Hw) _]|(s & Hs & _)]; [rewrite Hw; reflexivity|discriminate]. }
          rewrite D. destruct (rows_adjacent msp ep s0); reflexivity. }
        rewrite ES. reflexivity.
      * rewrite all_sections_app, Hd. unfold all_sections. cbn [map concat r_val]. rewrite app_nil_r, map_app. reflexivity.
Qed.

Lemma sorted_firstpart (l1 l2 : list Z) : StronglySorted Z.lt (l1 ++ l2) ->
  StronglySorted Z.lt l1 /\ StronglySorted Z.lt l2 /\ (forall a b, In a l1 -> In b l2 -> a < b).
Proof.
  induction l1 as [|a l1 IH]; cbn [app]; intros H; [split; [constructor|split; [exact H|intros a b []]]|].
  apply StronglySorted_inv in H. destruct H as [H1 H2]. destruct (IH H1) as (I1 & I2 & I3).
  apply Forall_app in H2. destruct H2 as [H2 H3]. split; [constructor; assumption|]. split; [exact I2|].
  intros c b [<-|Hc] Hb; [rewrite Forall_forall in H3; apply H3; exact Hb|apply I3; assumption].
Qed.

Lemma combine_run msp ps : 0 <= msp -> forall T f, chunked msp ps T f -> forall ts s0 e0, chain s0 ts e0 -> length ts = length ps ->
  StronglySorted Z.lt T -> 
  forall done S o ep x l, T = x :: l ->
  all_sections done = map Frame (S ++ pend o) -> Forall closed S -> start_before_o msp o x l ->
  (isS o = true -> ep = Some s0) -> 
  exists done' ep', combine_loop msp done ep (rows_of_pieces msp (isS o) ts ps) = Ok (done', ep') /\
    all_sections done' = map Frame (S ++ raw msp f o x l) /\ (f = true -> ep' = Some e0).
Proof.
  intros Hm T f HC. induction HC as [x0 l0 f Hne|x0 l0 y z f1 T ps f Hne Hy Hf HC IH|x0 l0 y z f1 T ps f Hne Hy Hf HC IH];
    intros ts s0 e0 Hch Hlen HS done S o ep x l ET Hd HSc Hb He.
  all: destruct ts as [|t ts]; [discriminate|]; destruct Hch as (s1 & Ht & Hch);
    cbn [length] in Hlen; injection Hlen as Hlen; injection ET as <- <-; cbn [rows_of_pieces].
  - destruct ts; [|discriminate]. cbn [rows_of_pieces]. cbn [chain] in Hch. subst e0.
    destruct (combine_piece msp t s0 s1 o x0 l0 f done S ep Hm Ht HS Hb Hd HSc He) as (done' & ep' & E1 & E2 & E3).
    exists done', ep'. rewrite E1. cbn [combine_loop]. split; [reflexivity|]. split; assumption.
  - change (x0 :: l0 ++ z :: T) with ((x0 :: l0) ++ z :: T) in HS. apply sorted_firstpart in HS. destruct HS as (HS1 & HS2 & HS3).
    assert (Hyin : In y (x0 :: l0)) by (apply last_opt_in; exact Hy).
    assert (Hb1 : start_before_o msp o x0 l0) by (destruct l0 as [|w l0]; [contradiction|exact Hb]).
    destruct (combine_piece msp t s0 s1 o x0 l0 f1 done S ep Hm Ht HS1 Hb1 Hd HSc He) as (done1 & ep1 & E1 & E2 & E3).
    destruct (raw_split msp f l0 f1 o x0 y z T Hy Hf HS1) as (P & o' & R1 & R2 & R3 & R4 & R5).
    { intros v ->. cbn in Hb. lia. }
    cbn [snd]. rewrite E1. rewrite R2, app_assoc in E2.
    destruct (IH ts s1 e0 Hch Hlen) with (done := done1) (S := S ++ P) (o := o') (ep := ep1) (x := y) (l := z :: T)
      as (done' & ep' & F1 & F2 & F3).
    + constructor; [exact HS2|]. rewrite Forall_forall. intros b Hb2. apply HS3; assumption.
    + reflexivity.
    + exact E2.
    + apply Forall_app. split; assumption.
    + destruct o' as [[v|]|]; [|exact I|exact I]. right. split; [apply R5; reflexivity|]. cbn in R1. congruence.
    + rewrite R1. exact E3.
    + exists done', ep'. rewrite R1 in F1. split; [exact F1|]. split; [|exact F3]. rewrite F2, R3, <- app_assoc. do 3 f_equal.
      cbn [raw]. rewrite <- Hf, <- R1. destruct o'; reflexivity.
  - change (x0 :: l0 ++ z :: T) with ((x0 :: l0) ++ z :: T) in HS. apply sorted_firstpart in HS. destruct HS as (HS1 & HS2 & HS3).
    assert (Hyin : In y (x0 :: l0)) by (apply last_opt_in; exact Hy).
    assert (Hb1 : start_before_o msp o x0 l0) by (destruct l0 as [|w l0]; [contradiction|exact Hb]).
    destruct (combine_piece msp t s0 s1 o x0 l0 f1 done S ep Hm Ht HS1 Hb1 Hd HSc He) as (done1 & ep1 & E1 & E2 & E3).
    destruct (raw_split msp f l0 f1 o x0 y z T Hy Hf HS1) as (P & o' & R1 & R2 & R3 & R4 & R5).
    { intros v ->. cbn in Hb. lia. }
    cbn [snd]. rewrite E1. rewrite R2, app_assoc in E2.
    destruct (IH ts s1 e0 Hch Hlen) with (done := done1) (S := S ++ P) (o := o') (ep := ep1) (x := z) (l := T)
      as (done' & ep' & F1 & F2 & F3).
    + exact HS2.
    + reflexivity.
    + exact E2.
    + apply Forall_app. split; assumption.
    + destruct o' as [[v|]|]; [|exact I|exact I]. left. specialize (R5 v eq_refl).
      specialize (HS3 y z Hyin (or_introl eq_refl)). lia.
    + rewrite R1. exact E3.
    + exists done', ep'. rewrite R1 in F1. split; [exact F1|]. split; [|exact F3]. rewrite F2, R3, <- app_assoc. reflexivity.
Qed.

(** ** Running the node over chunks *)

Lemma raw_flag msp f l : forall o x,
  match last_opt (raw msp f o x l) with
  | None => raw msp f o x l = [] /\ f = false /\ o = None
  | Some p => f = match snd p with None => true | Some _ => false end
  end.
Proof.
  induction l as [|y r IH]; intros o x.
  - cbn. destruct o as [s|], f; cbn; auto.
  - cbn [raw]. destruct o as [s|], (chk msp x y) eqn:C.
    + specialize (IH (Some s) y). destruct (last_opt (raw msp f (Some s) y r)); [exact IH|]. destruct IH as (_ & _ & IH). discriminate.
    + rewrite last_opt_cons. specialize (IH None y). destruct (last_opt (raw msp f None y r)); [exact IH|].
      destruct IH as (_ & IH & _). exact IH.
    + specialize (IH (Some (Some x)) y). destruct (last_opt (raw msp f (Some (Some x)) y r)); [exact IH|]. destruct IH as (_ & _ & IH). discriminate.
    + specialize (IH None y). exact IH.
Qed.

(** Rows laid end to end before the instant [s]. *)
Definition row_in {A} (r : row A) (a b : Z) : Prop := r_start r = Some a /\ r_end r = Some b /\ a < b.
Definition laid {A} (s : Z) (data : table A) : Prop :=
  Forall (fun r => exists a b, row_in r a b /\ b <= s) data /\
  StronglySorted (fun r q => exists a b c d, row_in r a b /\ row_in q c d /\ b <= c) data.

Lemma laid_good {A} s (data : table A) : laid s data ->
  Forall row_ordered data /\ rows_disjoint data /\ sorted_by_start data.
Proof.
  intros [H1 H2]. split; [|split].
  - revert H1. apply Forall_impl. intros r (a & b & (E1 & E2 & L) & _) x y Ex Ey. congruence.
  - clear H1. induction H2 as [|r l Hl IH Hr]; [intros j k r q i Hj; destruct j; discriminate|].
    apply rows_disjoint_cons. split; [|exact IH]. revert Hr. apply Forall_impl.
    intros q (a & b & c & d & (E1 & E2 & L1) & (E3 & E4 & L2) & L) i [[A1 A2] [B1 B2]].
    specialize (A2 _ E2). specialize (B1 _ E3). lia.
  - clear H1. induction H2 as [|r l Hl IH Hr]; [constructor|]. constructor; [exact IH|]. revert Hr. apply Forall_impl.
    intros q (a & b & c & d & (E1 & E2 & L1) & (E3 & E4 & L2) & L). unfold start_before. rewrite E1, E3. lia.
Qed.

Lemma laid_snoc {A} s s1 (data : table A) r : laid s data -> row_in r s s1 -> laid s1 (data ++ [r]).
Proof.
  intros [H1 H2] Hr. split.
  - apply Forall_app. split.
    + revert H1. apply Forall_impl. intros q (a & b & Hq & L). exists a, b. split; [exact Hq|]. destruct Hr as (_ & _ & Hr). lia.
    + constructor; [|constructor]. exists s, s1. split; [exact Hr|lia].
  - revert H1 H2. induction data as [|q l IH]; intros H1 H2; [constructor; constructor|].
    apply StronglySorted_inv in H2. destruct H2 as [H2 H3]. apply Forall_cons_iff in H1. destruct H1 as [(a & b & Hq & L) H1].
    cbn [app]. constructor; [exact (IH H1 H2)|]. apply Forall_app. split; [exact H3|]. constructor; [|constructor].
    exists a, b, s, s1. auto.
Qed.

Lemma append_in_order {A} s s1 (data : table A) t v : laid s data -> bounded t s s1 ->
  results_append data t v = Ok (data ++ [mkRow (tf_start t) (tf_end t) v]).
Proof.
  intros Hl Ht. destruct (laid_good _ _ Hl) as (G1 & G2 & G3). pose proof Ht as (T1 & T2 & T3 & T4).
  assert (Hu : usable t).
  { split; [exact T3|]. intros a b Ea Eb. rewrite T1 in Ea. rewrite T2 in Eb. congruence. }
  set (r := mkRow (tf_start t) (tf_end t) v).
  assert (Hr : row_in r s s1) by (split; [exact T1|split; [exact T2|exact T4]]).
  destruct (append_outcome data t v G1 G2 Hu) as [(d & E & Hp & Hs & Hd & Ho & _)|(_ & q & i & Hq & Hc & Hi)].
  - rewrite E. f_equal. apply (sorted_unique r_start).
    + apply kle_start. exact Hs.
    + apply kle_start. apply (laid_good s1). apply laid_snoc with (s := s); assumption.
    + etransitivity; [exact Hp|]. apply Permutation_cons_append.
    + apply (disjoint_unique d Ho Hd).
  - exfalso. destruct Hl as [Hl _]. rewrite Forall_forall in Hl. destruct (Hl q Hq) as (a & b & (E1 & E2 & L1) & L).
    destruct Hc as [_ Hc]. specialize (Hc _ E2). destruct Hi as (_ & Hi & _). specialize (Hi _ T1). lia.
Qed.

(** What chunk [ch] is: valid timestamps and flag. *)
Definition piece (msp : Z) (ch : chunk bool) (p : list Z * bool) : Prop :=
  exists x y l z, fst p = x :: y :: l /\ valid_times (c_rows ch) (x :: y :: l) /\ increasing_times (x :: y :: l) /\
    last_opt (x :: y :: l) = Some z /\ continues msp z (c_look ch) (snd p).

Lemma process_run msp : forall cs ps, Forall2 (piece msp) cs ps -> forall s e prev data,
  chain s (map c_tf cs) e -> laid s data ->
  exists fl, foldM (gs_process_chunk msp) cs (prev, data) = Ok (fl, data ++ rows_of_pieces msp prev (map c_tf cs) ps).
Proof.
  induction 1 as [|ch p cs ps Hp HF IH]; intros s e prev data Hch Hl.
  - exists prev. cbn. rewrite app_nil_r. reflexivity.
  - destruct Hch as (s1 & Ht & Hch). destruct Hp as (x & y & l & z & E & Hv & Hi & Hz & Hc). destruct p as [idx f]. cbn [fst snd] in *. subst idx.
    assert (Hss : s <= s1) by (destruct Ht as (_ & _ & _ & Ht); lia).
    cbn [foldM map rows_of_pieces]. unfold gs_process_chunk at 1.
    rewrite (good_sections_raw _ _ _ prev _ _ _ _ _ Hv Hi Hz Hc). cbn [bind].
    set (o := if prev then Some None else None : option (option Z)).
    rewrite last_opt_map. pose proof (raw_flag msp f (y :: l) o x) as HF2.
    unfold rows_of_piece. cbn [fst snd]. fold o.
    destruct (last_opt (raw msp f o x (y :: l))) as [q|] eqn:EL; cbn [option_map].
    + destruct (raw msp f o x (y :: l)) as [|q0 R] eqn:ER; [discriminate|].
      rewrite (append_in_order s s1) by assumption. cbn [bind].
      change (match tf_end (Frame q) with Some _ => false | None => true end) with (match snd q with Some _ => false | None => true end).
      replace (match snd q with Some _ => false | None => true end) with f by (rewrite HF2; destruct (snd q); reflexivity).
      destruct (IH s1 e f (data ++ [mkRow (tf_start (c_tf ch)) (tf_end (c_tf ch)) (map Frame (q0 :: R))]) Hch) as [fl IH'].
      * apply laid_snoc with (s := s); [exact Hl|]. destruct Ht as (T1 & T2 & T3 & T4). split; [exact T1|split; [exact T2|exact T4]].
      * exists fl. rewrite IH', <- app_assoc. reflexivity.
    + destruct HF2 as (ER & -> & Ho). rewrite ER. cbn [bind app].
      assert (prev = false) by (subst o; destruct prev; [discriminate|reflexivity]). subst prev.
      apply IH with (s := s1) (e := e); [exact Hch|]. destruct Hl as [L1 L2]. split; [|exact L2].
      revert L1. apply Forall_impl. intros r (a & b & Hr & L). exists a, b. split; [exact Hr|lia].
Qed.

(** ** From chunks to pieces *)

Lemma split_unique {A} (x : sample A) : forall l1 k1 l2 k2, StronglySorted slt (l1 ++ x :: l2) ->
  l1 ++ x :: l2 = k1 ++ x :: k2 -> l2 = k2.
Proof.
  induction l1 as [|a l1 IH]; intros k1 l2 k2 HS E.
  - destruct k1 as [|b k1]; [cbn in E; congruence|]. exfalso. cbn in E. injection E as <- E.
    apply StronglySorted_inv in HS. destruct HS as [_ HS]. rewrite E in HS. apply Forall_app in HS. destruct HS as [_ HS].
    apply Forall_inv in HS. unfold slt in HS. lia.
  - destruct k1 as [|b k1].
    + exfalso. cbn in E, HS. injection E as -> E. apply StronglySorted_inv in HS. destruct HS as [_ HS].
      apply Forall_app in HS. destruct HS as [_ HS]. apply Forall_inv in HS. unfold slt in HS. lia.
    + cbn in E, HS. injection E as <- E. apply (IH k1); [|exact E]. apply StronglySorted_inv in HS. tauto.
Qed.

Definition vt (l : list (sample bool)) : list Z := map fst (filter snd l).

Lemma vt_app a b : vt (a ++ b) = vt a ++ vt b.
Proof. unfold vt. rewrite filter_app, map_app. reflexivity. Qed.

Lemma vt_spec l index : valid_times l index <-> index = vt l.
Proof.
  unfold valid_times, vt. split.
  - intros (m & Hm & ->). apply (is_filter_filter _ snd) in Hm; [subst; reflexivity|intros x; reflexivity].
  - intros ->. exists (filter snd l). split; [|reflexivity]. apply (is_filter_filter _ snd); [intros x; reflexivity|reflexivity].
Qed.

Lemma vt_sorted l : StronglySorted slt l -> StronglySorted Z.lt (vt l).
Proof.
  unfold vt. induction 1 as [|a l Hl IH Ha]; [constructor|]. cbn [filter]. destruct (snd a); [|exact IH]. cbn [map].
  constructor; [exact IH|]. rewrite Forall_forall in *. intros b Hb. apply in_map_iff in Hb. destruct Hb as (q & <- & Hq).
  apply filter_In in Hq. apply Ha. tauto.
Qed.

Lemma first_valid l z T : vt l = z :: T -> exists pre post, l = pre ++ (z, true) :: post /\ Forall (fun r => snd r = false) pre.
Proof.
  induction l as [|[a v] l IH]; [discriminate|]. unfold vt. cbn [filter snd]. destruct v; cbn [map].
  - intros E. injection E as -> _. exists [], l. split; [reflexivity|constructor].
  - intros E. destruct (IH E) as (pre & post & -> & HF). exists ((a, false) :: pre), post. split; [reflexivity|constructor; [reflexivity|exact HF]].
Qed.

Lemma vt_nil l : vt l = [] -> Forall (fun r => snd r = false) l.
Proof.
  induction l as [|[a v] l IH]; [constructor|]. unfold vt. cbn [filter snd]. destruct v; [discriminate|].
  intros E. constructor; [reflexivity|]. apply IH. exact E.
Qed.

Lemma vt_in l t : In t (vt l) <-> In (t, true) l.
Proof.
  unfold vt. rewrite in_map_iff. split.
  - intros ([a v] & <- & H). apply filter_In in H. destruct H as [H E]. cbn in *. subst v. exact H.
  - intros H. exists (t, true). split; [reflexivity|]. apply filter_In. split; [exact H|reflexivity].
Qed.

Lemma continues_first msp y n l z T : (1 <= n)%nat -> (exists x, In x (firstn n l) /\ snd x = true) -> vt l = z :: T ->
  continues msp y (Some (firstn n l)) (chk msp y z).
Proof.
  intros Hn [[t v] [Hx Hv]] E. cbn in Hv. subst v. right.
  assert (E2 : exists T', vt (firstn n l) = z :: T').
  { rewrite <- (firstn_skipn n l), vt_app in E. destruct (vt (firstn n l)) as [|w T'] eqn:EV.
    - exfalso. apply vt_in in Hx. rewrite EV in Hx. destruct Hx.
    - cbn in E. injection E as -> _. exists T'. reflexivity. }
  destruct E2 as [T' E2]. destruct (first_valid _ _ _ E2) as (pre & post & EE & HF). exists pre, z, post.
  split; [exact EE|]. split; [exact HF|]. unfold chk. lia.
Qed.

Lemma continues_exists msp y l : (l = [] \/ exists x, In x l /\ snd x = true) -> exists b, continues msp y (Some l) b.
Proof.
  intros [->|(x & Hx & Hv)].
  - exists false. left. split; reflexivity.
  - destruct (vt l) as [|z T] eqn:E.
    + exfalso. apply vt_nil in E. rewrite Forall_forall in E. specialize (E _ Hx). congruence.
    + exists (chk msp y z). destruct (first_valid _ _ _ E) as (pre & post & EE & HF). right. exists pre, z, post.
      split; [exact EE|]. split; [exact HF|]. unfold chk. lia.
Qed.

Lemma sorted_part {A} (pre c post : list (sample A)) : StronglySorted slt (pre ++ c ++ post) -> StronglySorted slt c.
Proof. intros H. apply sorted_app in H. destruct H as (_ & H & _). apply sorted_app in H. tauto. Qed.

Lemma pieces_exist msp rows n : increasing rows -> (1 <= n)%nat -> forall cs, cs <> [] -> share_one_row cs ->
  Forall (look_ahead_right rows n) cs -> Forall usable_chunk cs ->
  exists ps f, Forall2 (piece msp) cs ps /\ chunked msp ps (vt (unshared cs)) f /\
    (exists pre post, rows = pre ++ unshared cs ++ post /\ (post = [] \/ exists x, In x (firstn n post) /\ snd x = true) /\
       forall y, last_opt (vt (unshared cs)) = Some y -> continues msp y (Some (firstn n post)) f).
Proof.
  intros Hinc Hn. apply increasing_sorted in Hinc.
  induction cs as [|a [|b cs] IH]; intros Hne Hsh HL HU; [contradiction| |].
  - clear IH. apply Forall_inv in HL. apply Forall_inv in HU. destruct HL as (pre & post & ER & EL).
    destruct HU as [(index & Hv & Hlen) Hlook]. apply vt_spec in Hv. subst index.
    replace (Nat.eqb n 0) with false in EL by (symmetry; apply Nat.eqb_neq; lia).
    specialize (Hlook _ EL). unfold unshared. cbn [map concat]. rewrite app_nil_r.
    destruct (vt (c_rows a)) as [|x [|y l]] eqn:EV; [cbn in Hlen; lia|cbn in Hlen; lia|].
    destruct (last_opt_some x (y :: l)) as [z Hz]. 
    destruct (continues_exists msp z _ Hlook) as [f Hf].
    exists [(x :: y :: l, f)], f. split; [|split].
    + constructor; [|constructor]. exists x, y, l, z. split; [reflexivity|]. split; [apply vt_spec; symmetry; exact EV|].
      split; [|split; [exact Hz|rewrite EL; exact Hf]]. apply inc_sorted. rewrite <- EV. apply vt_sorted. rewrite ER in Hinc.
      exact (sorted_part _ _ _ Hinc).
    + constructor. discriminate.
    + exists pre, post. split; [exact ER|]. split.
      * destruct Hlook as [E|E]; [left|right; exact E]. destruct post; [reflexivity|]. destruct n; [lia|discriminate].
      * intros y' E. rewrite Hz in E. injection E as <-. exact Hf.
  - cbn [share_one_row] in Hsh. destruct Hsh as [(x & prea & postb & Ea & Eb) Hsh].
    apply Forall_cons_iff in HL. apply Forall_cons_iff in HU. destruct HL as [HLa HL], HU as [HUa HU].
    destruct (IH ltac:(discriminate) Hsh HL HU) as (ps & f & I1 & I2 & pre & post & ER & Hpost & Hcont). clear IH.
    destruct HLa as (pa & posta & ERa & EL). replace (Nat.eqb n 0) with false in EL by (symmetry; apply Nat.eqb_neq; lia).
    destruct HUa as [(index & Hv & Hlen) Hlook]. apply vt_spec in Hv. subst index. specialize (Hlook _ EL).
    assert (Eu : unshared (b :: cs) = x :: postb ++ concat (map (fun c' => tl (c_rows c')) cs)).
    { unfold unshared. rewrite Eb. reflexivity. }
    assert (Eu2 : unshared (a :: b :: cs) = c_rows a ++ postb ++ concat (map (fun c' => tl (c_rows c')) cs)).
    { unfold unshared. cbn [map concat]. rewrite Eb. reflexivity. }
    set (rest := postb ++ concat (map (fun c' => tl (c_rows c')) cs)) in *.
    assert (EP : posta = rest ++ post).
    { rewrite ERa in ER. rewrite Eu, Ea in ER. rewrite ERa in Hinc. rewrite Ea in Hinc.
      rewrite <- !app_assoc in ER, Hinc. cbn [app] in ER, Hinc. rewrite app_assoc in ER, Hinc.
      apply (split_unique x (pa ++ prea) pre); [exact Hinc|]. exact ER. }
    (* valid rows of the rest *)
    assert (HUb : exists z T, vt postb = z :: T).
    { apply Forall_inv in HU. destruct HU as [(index & Hv & Hl2) _]. apply vt_spec in Hv. subst index. rewrite Eb in Hl2.
      change (x :: postb) with ([x] ++ postb) in Hl2. rewrite vt_app, app_length in Hl2.
      assert (length (vt [x]) <= 1)%nat by (unfold vt; cbn; destruct (snd x); cbn; lia).
      destruct (vt postb) as [|z T]; [cbn [length] in Hl2; lia|]. exists z, T. reflexivity. }
    destruct HUb as (z & T0 & EVb).
    assert (EVr : exists T, vt rest = z :: T).
    { exists (T0 ++ vt (concat (map (fun c' => tl (c_rows c')) cs))). unfold rest. rewrite vt_app, EVb. reflexivity. }
    destruct EVr as [T EVr].
    assert (EVp : exists T', vt posta = z :: T').
    { rewrite EP, vt_app, EVr. exists (T ++ vt post). reflexivity. }
    destruct EVp as [T' EVp].
    assert (HV : exists w, In w (firstn n posta) /\ snd w = true).
    { destruct Hlook as [E|E]; [|exact E]. exfalso. destruct posta; [discriminate|]. destruct n; [lia|discriminate]. }
    destruct (vt (c_rows a)) as [|x0 [|y0 l0]] eqn:EVa; [cbn in Hlen; lia|cbn in Hlen; lia|].
    destruct (last_opt_some x0 (y0 :: l0)) as [y Hy].
    pose proof (continues_first msp y n posta z T' Hn HV EVp) as Hc.
    exists ((x0 :: y0 :: l0, chk msp y z) :: ps), f. split; [|split].
    + constructor; [|exact I1]. exists x0, y0, l0, y. split; [reflexivity|]. split; [apply vt_spec; symmetry; exact EVa|].
      split; [|split; [exact Hy|rewrite EL; exact Hc]].
      apply inc_sorted. rewrite <- EVa. apply vt_sorted. rewrite ERa in Hinc. exact (sorted_part _ _ _ Hinc).
    + rewrite Eu2, vt_app, EVa, EVr. rewrite Eu in I2. change (x :: rest) with ([x] ++ rest) in I2. rewrite vt_app, EVr in I2.
      destruct (snd x) eqn:Ex.
      * assert (fst x = y).
        { rewrite Ea, vt_app in EVa. assert (E1 : vt [x] = [fst x]) by (unfold vt; cbn; rewrite Ex; reflexivity).
          rewrite E1 in EVa. rewrite <- EVa, last_opt_snoc in Hy. congruence. }
        assert (E1 : vt [x] = [y]) by (unfold vt; cbn; rewrite Ex; cbn; congruence). rewrite E1 in I2.
        apply (ck_shared msp x0 (y0 :: l0) y z _ T ps f); [discriminate|exact Hy|reflexivity|exact I2].
      * assert (E1 : vt [x] = []) by (unfold vt; cbn; rewrite Ex; reflexivity). rewrite E1 in I2.
        apply (ck_apart msp x0 (y0 :: l0) y z _ T ps f); [discriminate|exact Hy|reflexivity|exact I2].
    + exists pa, post. split; [|split].
      * rewrite ERa, Eu2, EP, <- !app_assoc. reflexivity.
      * exact Hpost.
      * intros y' Hy'. apply Hcont. rewrite Eu2, vt_app, EVr in Hy'. rewrite Eu. change (x :: rest) with ([x] ++ rest).
        rewrite vt_app, EVr. destruct (last_opt_some z T) as [v Hvv].
        assert (L : forall k, last_opt (k ++ z :: T) = Some v).
        { induction k as [|q k IHk]; [exact Hvv|]. cbn [app]. rewrite last_opt_cons, IHk. reflexivity. }
        rewrite L in *. exact Hy'.
Qed.

(** ** The combined result *)

Definition close_last (e : Z) (t : tf) : tf :=
  mkTF (tf_start_ t) (Some (match tf_end_ t with Some x => x | None => e end)) true false true.
Definition close_all (e : Z) (ts : list tf) : list tf :=
  match last_opt ts with None => [] | Some t => set_last ts (close_last e t) end.

Lemma close_all_spec e (P : list (option Z * option Z)) : last_closed e (map Frame P) (close_all e (map Frame P)).
Proof.
  unfold close_all. induction P as [|p P IH]; [constructor|]. cbn [map]. rewrite last_opt_cons.
  destruct P as [|q P].
  - cbn. constructor; reflexivity.
  - destruct (last_opt_some (Frame q) (map Frame P)) as [z Hz]. cbn [map] in *. rewrite Hz in *.
    cbn [set_last]. apply lc_cons; [discriminate|]. exact IH.
Qed.

Lemma combined_run msp data e P f done ep :
  combine_loop msp [] None data = Ok (done, ep) -> all_sections done = map Frame P ->
  f = match last_opt P with Some p => match snd p with None => true | _ => false end | None => false end ->
  (f = true -> ep = Some e) -> (f = true -> forall s, last_opt P = Some (Some s, None) -> s < e) ->
  exists after, gs_combined msp data = Ok (close_all e (map Frame P), after).
Proof.
  intros E1 E2 Ef He Hs. unfold gs_combined. rewrite E1. cbn [bind]. rewrite E2. unfold close_all. rewrite last_opt_map.
  destruct (last_opt P) as [[a b]|] eqn:EL; cbn [option_map]; [|eexists; reflexivity].
  assert (EP : exists Q, P = Q ++ [(a, b)]).
  { clear -EL. induction P as [|p [|q P] IH]; [discriminate|injection EL as ->; exists []; reflexivity|].
    destruct (IH EL) as [Q ->]. exists (p :: Q). reflexivity. }
  destruct EP as [Q ->]. rewrite map_app in *. cbn [map] in *.
  assert (EB : match tf_end (set_incl (Frame (a, b)) true) with
               | Some _ => Ok (set_incl (Frame (a, b)) true)
               | None => set_end (set_incl (Frame (a, b)) true) ep
               end = Ok (close_last e (Frame (a, b)))).
  { unfold set_incl, Frame, tf_end, set_end, tf_start, close_last. cbn. destruct b as [b|]; [reflexivity|].
    cbn in Ef. rewrite (He Ef). destruct a as [a|]; [|reflexivity].
    specialize (Hs Ef a eq_refl). replace (e <=? a) with false by lia. reflexivity. }
  rewrite EB. cbn [bind]. rewrite (set_last_section_spec _ _ _ (close_last e (Frame (a, b))) E2). rewrite set_last_app.
  eexists. reflexivity.
Qed.

Lemma raw_last_start msp f l : forall o x s, StronglySorted Z.lt (x :: l) -> (forall v, o = Some (Some v) -> v <= x) ->
  last_opt (raw msp f o x l) = Some (Some s, None) -> exists z, In z (x :: l) /\ s <= z.
Proof.
  induction l as [|y r IH]; intros o x s HS Ho E.
  - exists x. split; [left; reflexivity|]. cbn in E. destruct o as [v|], f; cbn in E; try discriminate; injection E as E; subst; [apply Ho; reflexivity|lia].
  - apply StronglySorted_inv in HS. destruct HS as [H1 H2]. pose proof (Forall_inv H2) as Hxy.
    assert (W : (exists z, In z (y :: r) /\ s <= z) -> exists z, In z (x :: y :: r) /\ s <= z)
      by (intros (z & Hz & L); exists z; split; [right; exact Hz|exact L]).
    apply W. cbn [raw] in E. destruct o as [v|], (chk msp x y).
    + apply (IH (Some v)); [exact H1| |exact E]. intros w Ew. specialize (Ho w Ew). lia.
    + rewrite last_opt_cons in E. destruct (last_opt (raw msp f None y r)) eqn:EL; [|discriminate].
      apply (IH None); [exact H1|discriminate|]. rewrite EL. exact E.
    + apply (IH (Some (Some x))); [exact H1| |exact E]. intros w Ew. injection Ew as <-. lia.
    + apply (IH None); [exact H1|discriminate|exact E].
Qed.

Lemma goes_on_flag msp rows n pre m post last f : StronglySorted slt rows -> (1 <= n)%nat ->
  rows = pre ++ m ++ post -> (post = [] \/ exists x, In x (firstn n post) /\ snd x = true) ->
  last_opt (vt m) = Some last -> continues msp last (Some (firstn n post)) f -> (f = true <-> goes_on msp rows last).
Proof.
  intros HS Hn ER Hpost Hl Hc.
  assert (HV : StronglySorted Z.lt (vt pre ++ vt m ++ vt post)).
  { rewrite <- !vt_app. apply vt_sorted. rewrite <- ER. exact HS. }
  assert (Hg : goes_on msp rows last <-> exists t, In t (vt post) /\ last < t <= last + msp).
  { split.
    - intros ([t v] & Hin & Hv & Hb). cbn in Hv, Hb. subst v. exists t. split; [|exact Hb].
      apply vt_in in Hin. rewrite ER, !vt_app in Hin. apply in_app_or in Hin. destruct Hin as [Hin|Hin].
      + exfalso. apply sorted_firstpart in HV. destruct HV as (_ & _ & HV).
        specialize (HV t last Hin). apply last_opt_in in Hl. specialize (HV ltac:(apply in_or_app; left; exact Hl)). lia.
      + apply in_app_or in Hin. destruct Hin as [Hin|Hin]; [|exact Hin]. exfalso.
        apply sorted_firstpart in HV. destruct HV as (_ & HV & _). apply sorted_firstpart in HV. destruct HV as (HV & _ & _).
        clear -HV Hl Hin Hb. induction (vt m) as [|a [|b l] IH]; [destruct Hin| |].
        * destruct Hin as [<-|[]]. cbn in Hl. injection Hl as ->. lia.
        * apply StronglySorted_inv in HV. destruct HV as [V1 V2]. destruct Hin as [<-|Hin]; [|apply IH; assumption].
          assert (In last (b :: l)) by (apply last_opt_in; exact Hl). rewrite Forall_forall in V2. specialize (V2 _ H). lia.
    - intros (t & Hin & Hb). exists (t, true). split; [|split; [reflexivity|exact Hb]]. apply vt_in in Hin. rewrite ER.
      apply in_or_app. right. apply in_or_app. right. exact Hin. }
  rewrite Hg. destruct (vt post) as [|z T] eqn:EV.
  - destruct Hpost as [->|([t v] & Hx & Hv)].
    + destruct Hc as [[_ ->]|(p & x & q & E & _)]; [|destruct n; destruct p; discriminate].
      split; [discriminate|intros (t & [] & _)].
    + cbn in Hv. subst v. exfalso. assert (In t (vt post)); [|rewrite EV in H; destruct H].
      apply vt_in. rewrite <- (firstn_skipn n post). apply in_or_app. left. exact Hx.
  - destruct Hpost as [->|Hx]; [discriminate|].
    pose proof (continues_first msp last n post z T Hn Hx EV) as Hc2.
    assert (U : forall look b b', continues msp last look b -> continues msp last look b' -> look <> Some [] -> b = b').
    { intros [l|] b b'; cbn; [|congruence]. intros [[-> ->]|(p & x & q & E & F & B)] H2 N; [exfalso; apply N; reflexivity|].
      destruct H2 as [[-> ->]|(p' & x' & q' & E' & F' & B')]; [exfalso; apply N; reflexivity|].
      assert (x = x').
      { rewrite E in E'. clear -E' F F'. revert p' F' E'. induction p as [|a p IH]; intros p' F' E'.
        - destruct p' as [|b p']; [cbn in E'; congruence|]. cbn in E'. injection E' as <- _. apply Forall_inv in F'. discriminate.
        - destruct p' as [|b p']; cbn in E'; injection E' as -> E'.
          + apply Forall_inv in F. discriminate.
          + apply (IH (Forall_inv_tail F) p' (Forall_inv_tail F') E'). }
      subst x'. destruct b, b'; try reflexivity; exfalso.
      - assert (false = true) by (apply B', B; reflexivity). discriminate.
      - assert (false = true) by (apply B, B'; reflexivity). discriminate. }
    assert (f = chk msp last z).
    { apply (U _ _ _ Hc Hc2). destruct Hx as (x & Hx & _). destruct (firstn n post); [destruct Hx|discriminate]. }
    subst f. unfold chk. assert (Hzl : last < z).
    { apply sorted_firstpart in HV. destruct HV as (_ & HV & _). apply sorted_firstpart in HV. destruct HV as (_ & _ & HV).
      apply HV; [apply last_opt_in; exact Hl|left; reflexivity]. }
    split.
    + intros C. exists z. split; [left; reflexivity|lia].
    + intros (t & [<-|Ht] & Hb); [lia|]. apply sorted_firstpart in HV. destruct HV as (_ & HV & _).
      apply sorted_firstpart in HV. destruct HV as (_ & HV & _). apply StronglySorted_inv in HV. destruct HV as [_ HV].
      rewrite Forall_forall in HV. specialize (HV _ Ht). lia.
Qed.

Lemma chunks_combined msp rows n cs m c s e index rs last : 
  0 <= msp -> (1 <= n)%nat -> increasing rows -> m <> [] -> delivers cs m c -> Forall (look_ahead_right rows n) cs ->
  chain s (map c_tf cs) e -> Forall usable_chunk cs ->
  (goes_on msp rows last -> forall x, In x m -> fst x < e) ->
  valid_times m index -> last_of index last -> runs_of msp index rs ->
  exists b ts us, (b = true <-> goes_on msp rows last) /\ frames_of_runs b false rs ts /\ last_closed e ts us /\
    good_sections_of msp (cs, None) = Ok us.
Proof.
  intros Hm Hn Hinc Hne (Hun & Hsh & Hsz) HL Hch HU Hlt Hv Hlast Hr.
  apply vt_spec in Hv. subst index. apply last_opt_last_of in Hlast.
  assert (Hcs : cs <> []) by (intros ->; cbn in Hun; congruence).
  destruct (pieces_exist msp rows n Hinc Hn cs Hcs Hsh HL HU) as (ps & f & P1 & P2 & pre & post & ER & Hpost & Hcont).
  rewrite Hun in *.
  pose proof (proj1 (increasing_sorted rows) Hinc) as HS.
  assert (Hf : f = true <-> goes_on msp rows last).
  { apply (goes_on_flag msp rows n pre m post); try assumption. apply Hcont. exact Hlast. }
  assert (HSm : StronglySorted Z.lt (vt m)).
  { apply vt_sorted. rewrite ER in HS. exact (sorted_part _ _ _ HS). }
  destruct (vt m) as [|x l] eqn:EV; [discriminate|].
  destruct (process_run msp cs ps P1 s e false [] Hch) as [fl EPr].
  { split; constructor. }
  cbn [app] in EPr.
  destruct (combine_run msp ps Hm _ _ P2 (map c_tf cs) s e Hch) with (done := @nil (row (list tf))) (S := @nil (option Z * option Z)) (o := @None (option Z)) (ep := @None Z) (x := x) (l := l)
    as (done & ep & C1 & C2 & C3); try reflexivity; try exact I.
  { rewrite map_length. clear -P1. induction P1; [reflexivity|]. cbn. congruence. }
  { exact HSm. }
  { constructor. }
  { discriminate. }
  cbn [isS app] in C1, C2. 
  destruct (combined_run msp _ e (raw msp f None x l) f done ep C1 C2) as [after EC].
  { pose proof (raw_flag msp f l None x) as RF. destruct (last_opt (raw msp f None x l)); [exact RF|tauto]. }
  { exact C3. }
  { intros Ef v Ev. destruct (raw_last_start msp f l None x v HSm) as (z & Hz & Lz); [discriminate|exact Ev|].
    assert (In z (vt m)) by (rewrite EV; exact Hz). apply vt_in in H.
    specialize (Hlt (proj1 Hf Ef) _ H). cbn in Hlt. lia. }
  exists f, (map Frame (raw msp f None x l)), (close_all e (map Frame (raw msp f None x l))).
  split; [exact Hf|]. split; [|split].
  - rewrite (runs_unique _ _ _ _ Hr (runs_are_runs msp l x)). destruct (raw_runs f msp l x) as [_ ->].
    apply fr_frames. destruct (runs_are_runs msp l x) as (_ & F & _). revert F. apply Forall_impl. tauto.
  - apply close_all_spec.
  - assert (EG : gs_process msp (cs, None) = Ok (rows_of_pieces msp false (map c_tf cs) ps)).
    { unfold gs_process. cbn [fst snd].
      match type of EPr with ?a = _ => match goal with |- bind ?b _ = _ => change b with a end end.
      rewrite EPr. reflexivity. }
    unfold good_sections_of. rewrite EG. cbn [bind]. rewrite EC. reflexivity.
Qed.
