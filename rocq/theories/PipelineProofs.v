From Verif Require Import Base TimeFrameModel StoreModel StoreSpec StoreProofs EnergyModel EnergySpec EnergyProofs PipelineModel PipelineSpec.
Open Scope Z_scope.

(** ** Requirements *)

Lemma meta_induction (P : meta -> Prop) : P AnyValue -> (forall n, P (Atom n)) ->
  (forall items, Forall (fun kv => P (snd kv)) items -> P (Dict items)) -> forall m, P m.
Proof.
  intros H1 H2 H3. fix IH 1. intros [|n|items]; [exact H1|exact (H2 n)|]. apply H3.
  induction items as [|[k v] items IHi]; [constructor|]. constructor; [exact (IH v)|exact IHi].
Qed.

Lemma lookup_in k d v : lookup_key k d = Some v -> In (k, v) d.
Proof.
  induction d as [|[k' w] d IH]; cbn [lookup_key]; [discriminate|]. destruct (Nat.eqb k k') eqn:E; intros H.
  - apply Nat.eqb_eq in E. injection H as ->. left. congruence.
  - right. auto.
Qed.

Lemma lookup_none k d : lookup_key k d = None -> forall v, ~ In (k, v) d.
Proof.
  induction d as [|[k' w] d IH]; cbn [lookup_key]; [intros _ v []|]. destruct (Nat.eqb k k') eqn:E; [discriminate|]. intros H v [Hv|Hv].
  - injection Hv as -> _. rewrite Nat.eqb_refl in E. discriminate.
  - exact (IH H v Hv).
Qed.

Lemma in_unique k (d : list (key * meta)) v w : NoDup (map fst d) -> In (k, v) d -> In (k, w) d -> v = w.
Proof.
  induction d as [|[k' u] d IH]; cbn [map fst]; intros HN Hv Hw; [destruct Hv|]. apply NoDup_cons_iff in HN. destruct HN as [N1 N2].
  destruct Hv as [Hv|Hv], Hw as [Hw|Hw].
  - congruence.
  - exfalso. apply N1. injection Hv as -> _. apply (in_map fst) in Hw. exact Hw.
  - exfalso. apply N1. injection Hw as -> _. apply (in_map fst) in Hv. exact Hv.
  - exact (IH N2 Hv Hw).
Qed.

Lemma wf_sub items k v : well_formed (Dict items) -> In (k, v) items -> well_formed v.
Proof. intros H. inversion H as [| |? H1 H2]; subst. apply H2. Qed.

Lemma wf_keys items : well_formed (Dict items) -> NoDup (map fst items).
Proof. intros H. inversion H; assumption. Qed.

Lemma at_path_cons_inv m k p w : at_path m (k :: p) w -> exists items v, m = Dict items /\ In (k, v) items /\ at_path v p w.
Proof. intros H. inversion H; subst. eauto. Qed.

Lemma at_path_nil_inv m w : at_path m [] w -> w = m.
Proof. intros H. inversion H; reflexivity. Qed.

(** The outcome for one item of a requirements dictionary. *)
Definition item_out (state : meta) (k : key) (v : meta) : res (list message) :=
  match state with
  | Dict d =>
      match lookup_key k d with
      | None => Ok [NotInState k v]
      | Some w => match v with
                  | Dict _ => find_unsatisfied w v
                  | AnyValue => Ok []
                  | Atom _ => if same_atom v w then Ok [] else Ok [OtherValue k v w]
                  end
      end
  | _ => Err TypeError
  end.

Lemma find_unsatisfied_dict state items : find_unsatisfied state (Dict items) =
  do ls <- mapM (fun kv => item_out state (fst kv) (snd kv)) items; Ok (concat ls).
Proof.
  cbn [find_unsatisfied]. induction items as [|[k v] items IH]; [reflexivity|].
  cbn [mapM fst snd]. fold (item_out state k v). destruct (item_out state k v) as [h|e]; cbn [bind]; [|reflexivity].
  rewrite IH. destruct (mapM _ items) as [ls|]; reflexivity.
Qed.

Lemma mapM_cases {A B} (f : A -> res B) l :
  (exists ys, mapM f l = Ok ys /\ Forall2 (fun x y => f x = Ok y) l ys) \/
  (exists e x, mapM f l = Err e /\ In x l /\ f x = Err e).
Proof.
  induction l as [|x l IH]; [left; exists []; split; constructor|]. cbn [mapM].
  destruct (f x) as [y|e] eqn:E; cbn [bind]; [|right; exists e, x; split; [reflexivity|split; [left; reflexivity|exact E]]].
  destruct IH as [(ys & E1 & E2)|(e & z & E1 & E2 & E3)]; rewrite E1; cbn [bind].
  - left. exists (y :: ys). split; [reflexivity|constructor; assumption].
  - right. exists e, z. split; [reflexivity|]. split; [right; exact E2|exact E3].
Qed.

Lemma mapM_err_in {A B} (f : A -> res B) l x e : In x l -> f x = Err e -> exists e', mapM f l = Err e'.
Proof.
  intros H E. destruct (mapM_cases f l) as [(ys & E1 & E2)|(e' & z & E1 & _)]; [|exists e'; exact E1]. exfalso.
  induction E2 as [|a b l ys H1 H2 IH]; [destruct H|]. destruct H as [->|H]; [congruence|apply IH; [exact H|]].
  cbn [mapM] in E1. rewrite H1 in E1. cbn [bind] in E1. destruct (mapM f l) as [zs|]; [injection E1 as ->; reflexivity|discriminate].
Qed.

(** The error: exactly when the state holds a plain value where a dictionary is needed. *)
Lemma unsatisfied_error requirements : forall state, well_formed state ->
  (forall e, find_unsatisfied state requirements = Err e -> e = TypeError /\ clash state requirements) /\
  (clash state requirements -> exists e, find_unsatisfied state requirements = Err e).
Proof.
  induction requirements as [|n|items IH] using meta_induction; intros state Hwf.
  - split; [intros e; discriminate|]. intros (p & kv & req & w & H & _). inversion H.
  - split; [intros e; discriminate|]. intros (p & kv & req & w & H & _). inversion H.
  - rewrite find_unsatisfied_dict. split.
    + intros e. destruct (mapM_cases (fun kv => item_out state (fst kv) (snd kv)) items) as [(ys & -> & _)|(e' & [k v] & -> & Hin & Ei)]; cbn [bind]; [discriminate|].
      intros [= <-]. cbn [fst snd] in Ei. unfold item_out in Ei.
      assert (Top : forall w, state = w -> (forall d, w <> Dict d) -> clash state (Dict items)).
      { intros w <- Hw. destruct items as [|kv items]; [destruct Hin|]. exists [], kv, items, state. split; [constructor|]. split; [constructor|exact Hw]. }
      destruct state as [|m|d]; try (injection Ei as <-; split; [reflexivity|apply (Top _ eq_refl); discriminate]).
      destruct (lookup_key k d) as [w|] eqn:El; [|discriminate]. apply lookup_in in El.
      destruct v as [|n|vi]; [discriminate|destruct (same_atom (Atom n) w); discriminate|].
      rewrite Forall_forall in IH. specialize (IH _ Hin w (wf_sub _ _ _ Hwf El)). cbn [snd] in IH.
      destruct (proj1 IH _ Ei) as [-> (p & kv & req & u & P1 & P2 & P3)]. split; [reflexivity|].
      exists (k :: p), kv, req, u. split; [econstructor; eassumption|]. split; [econstructor; eassumption|exact P3].
    + intros (p & kv & req & u & P1 & P2 & P3).
      enough (Hx : exists x e, In x items /\ item_out state (fst x) (snd x) = Err e).
      { destruct Hx as (x & e & Hx1 & Hx2). destruct (mapM_err_in (fun kv => item_out state (fst kv) (snd kv)) _ _ _ Hx1 Hx2) as [e' ->]. exists e'. reflexivity. }
      destruct p as [|k p].
      * apply at_path_nil_inv in P1. injection P1 as <-. apply at_path_nil_inv in P2. subst u. exists kv, TypeError. split; [left; reflexivity|].
        unfold item_out. destruct state as [|m|d]; [reflexivity|reflexivity|exfalso; exact (P3 d eq_refl)].
      * apply at_path_cons_inv in P1. destruct P1 as (it & v & E & Hin & P1). injection E as <-.
        apply at_path_cons_inv in P2. destruct P2 as (d & w & -> & Hd & P2).
        rewrite Forall_forall in IH. destruct (proj2 (IH _ Hin w (wf_sub _ _ _ Hwf Hd))) as [e He].
        { exists p, kv, req, u. auto. }
        cbn [snd] in He. exists (k, v), e. split; [exact Hin|]. cbn [fst snd]. unfold item_out.
        destruct (lookup_key k d) as [w'|] eqn:El; [|exfalso; exact (lookup_none _ _ El _ Hd)].
        apply lookup_in in El. rewrite (in_unique k d w' w (wf_keys _ Hwf) El Hd). destruct v; [discriminate|discriminate|exact He].
Qed.

Lemma same_atom_spec n w : same_atom (Atom n) w = true <-> w = Atom n.
Proof.
  destruct w; cbn; split; try discriminate.
  - intros H. apply Nat.eqb_eq in H. congruence.
  - intros [= ->]. apply Nat.eqb_refl.
Qed.

(** The messages are exactly the unmet requirements. *)
Lemma unsatisfied_messages requirements : forall state l, well_formed state -> find_unsatisfied state requirements = Ok l ->
  forall m, In m l <-> reports state requirements m.
Proof.
  induction requirements as [|n|items IH] using meta_induction; intros state l Hwf.
  - intros [= <-] m. split; [intros []|]. intros (p & req & st & k & v & H & _). inversion H.
  - intros [= <-] m. split; [intros []|]. intros (p & req & st & k & v & H & _). inversion H.
  - rewrite find_unsatisfied_dict. destruct (mapM_cases (fun kv => item_out state (fst kv) (snd kv)) items) as [(ys & -> & F)|(e' & x & -> & _)]; cbn [bind]; [|discriminate].
    intros [= <-] m.
    assert (Hc : In m (concat ys) <-> exists k v h, In (k, v) items /\ item_out state k v = Ok h /\ In m h).
    { clear -F. induction F as [|[k v] y items ys H1 H2 IH]; cbn [concat]; [split; [intros []|intros (k & v & h & [] & _)]|].
      rewrite in_app_iff, IH. split.
      - intros [H|(k' & v' & h & A & B & C)]; [exists k, v, y; split; [left; reflexivity|auto]|exists k', v', h; split; [right; exact A|auto]].
      - intros (k' & v' & h & [A|A] & B & C); [left; injection A as -> ->; cbn [fst snd] in H1; rewrite B in H1; injection H1 as ->; exact C|right; exists k', v', h; auto]. }
    rewrite Hc. clear Hc. split.
    + intros (k & v & h & Hin & E & Hm). unfold item_out in E. destruct state as [|s|d]; try discriminate.
      destruct (lookup_key k d) as [w|] eqn:El.
      * apply lookup_in in El. destruct v as [|n|vi].
        -- injection E as <-. destruct Hm.
        -- destruct (same_atom (Atom n) w) eqn:Es; injection E as <-; [destruct Hm|]. destruct Hm as [<-|[]].
           exists [], items, d, k, (Atom n). split; [constructor|]. split; [constructor|]. split; [exact Hin|right]. exists w.
           split; [reflexivity|]. split; [exact El|]. split; [eexists; reflexivity|]. intros <-. assert (same_atom (Atom n) (Atom n) = true) by (apply same_atom_spec; reflexivity). congruence.
        -- rewrite Forall_forall in IH. apply (proj1 (IH _ Hin w h (wf_sub _ _ _ Hwf El) E m)) in Hm.
           destruct Hm as (p & req & st & k' & v' & P1 & P2 & P3). exists (k :: p), req, st, k', v'.
           split; [econstructor; eassumption|]. split; [econstructor; eassumption|exact P3].
      * injection E as <-. destruct Hm as [<-|[]]. exists [], items, d, k, v. split; [constructor|]. split; [constructor|]. split; [exact Hin|left].
        split; [reflexivity|]. exact (lookup_none _ _ El).
    + assert (Hout : forall k v, In (k, v) items -> exists h, item_out state k v = Ok h).
      { clear -F. intros k v H. induction F as [|x y items ys H1 H2 IH]; [destruct H|]. destruct H as [->|H]; [exists y; exact H1|exact (IH H)]. }
      intros (p & req & st & k & v & P1 & P2 & P3 & P4). destruct p as [|kp p].
      * apply at_path_nil_inv in P1. injection P1 as ->. apply at_path_nil_inv in P2. subst state.
        destruct (Hout k v P3) as [h Hh]. exists k, v, h. split; [exact P3|]. split; [exact Hh|]. unfold item_out in Hh.
        destruct (lookup_key k st) as [w'|] eqn:El.
        -- destruct P4 as [[_ N]|(w & -> & Hw & (n & ->) & Hne)]; [exfalso; apply lookup_in in El; exact (N _ El)|].
           apply lookup_in in El. rewrite (in_unique k st w' w (wf_keys _ Hwf) El Hw) in Hh.
           destruct (same_atom (Atom n) w) eqn:Es; [apply same_atom_spec in Es; congruence|]. injection Hh as <-. left. reflexivity.
        -- injection Hh as <-. destruct P4 as [[-> _]|(w & _ & Hw & _)]; [left; reflexivity|exfalso; exact (lookup_none _ _ El _ Hw)].
      * apply at_path_cons_inv in P1. destruct P1 as (it & v0 & E & Hin & P1). injection E as <-.
        apply at_path_cons_inv in P2. destruct P2 as (d & w & -> & Hd & P2). destruct (Hout kp v0 Hin) as [h Hh].
        exists kp, v0, h. split; [exact Hin|]. split; [exact Hh|]. unfold item_out in Hh.
        destruct (lookup_key kp d) as [w'|] eqn:El; [|exfalso; exact (lookup_none _ _ El _ Hd)].
        apply lookup_in in El. rewrite (in_unique kp d w' w (wf_keys _ Hwf) El Hd) in Hh.
        destruct v0 as [|n|vi]; [inversion P1|inversion P1|].
        rewrite Forall_forall in IH. apply (proj2 (IH _ Hin w h (wf_sub _ _ _ Hwf Hd) Hh m)). exists p, req, st, k, v. auto.
Qed.

Lemma find_no_message items : forall state, well_formed state ->
  find_unsatisfied state (Dict items) = Ok [] -> all_met state (Dict items).
Proof.
  assert (G : forall requirements state, well_formed state -> find_unsatisfied state requirements = Ok [] ->
    forall p v, at_path requirements p v -> end_point v -> (p <> [] \/ exists it, requirements = Dict it) -> exists w, at_path state p w /\ meets v w).
  { induction requirements as [|n|it IH] using meta_induction; intros state Hwf E p v Hp He Hor.
    - inversion Hp; subst. destruct Hor as [H|[x H]]; [contradiction|discriminate].
    - inversion Hp; subst. destruct Hor as [H|[x H]]; [contradiction|discriminate].
    - destruct p as [|k p].
      + apply at_path_nil_inv in Hp. subst v. exists state. split; [constructor|exact I].
      + apply at_path_cons_inv in Hp. destruct Hp as (it' & v0 & Eit & Hin & Hp). injection Eit as <-.
        rewrite find_unsatisfied_dict in E.
        destruct (mapM_cases (fun kv => item_out state (fst kv) (snd kv)) it) as [(ys & Ey & F)|(e' & x & Ey & _)]; rewrite Ey in E; cbn [bind] in E; [|discriminate].
        injection E as E.
        assert (Ei : item_out state k v0 = Ok []).
        { clear -F E Hin. induction F as [|x y items ys H1 H2 IH]; [destruct Hin|]. cbn [concat] in E. apply app_eq_nil in E. destruct E as [-> E].
          destruct Hin as [->|Hin]; [exact H1|exact (IH E Hin)]. }
        unfold item_out in Ei. destruct state as [|s|d]; try discriminate. destruct (lookup_key k d) as [w|] eqn:El; [|discriminate].
        apply lookup_in in El. destruct v0 as [|n|vi].
        * inversion Hp; subst. exists w. split; [econstructor; [exact El|constructor]|exact I].
        * destruct (same_atom (Atom n) w) eqn:Es; [|discriminate]. apply same_atom_spec in Es. subst w. inversion Hp; subst.
          exists (Atom n). split; [econstructor; [exact El|constructor]|reflexivity].
        * rewrite Forall_forall in IH. destruct (IH _ Hin w (wf_sub _ _ _ Hwf El) Ei p v Hp He) as (u & U1 & U2); [right; eexists; reflexivity|].
          exists u. split; [econstructor; [exact El|exact U1]|exact U2]. }
  intros state Hwf E p v Hp He. apply (G (Dict items) state Hwf E p v Hp He). right. eexists. reflexivity.
Qed.

Lemma at_path_app a p b q c : at_path a p b -> at_path b q c -> at_path a (p ++ q) c.
Proof. intros A. induction A as [|its k0 v0 p0 w Hin A IH]; intros B; [exact B|]. cbn [app]. econstructor; [exact Hin|exact (IH B)]. Qed.

Lemma at_path_split a p b q c : well_formed a -> at_path a p b -> at_path a (p ++ q) c -> at_path b q c.
Proof.
  intros Wa A. induction A as [|its k0 v0 p0 w Hin A IH]; intros B; [exact B|]. cbn [app] in B.
  apply at_path_cons_inv in B. destruct B as (it & v' & E & Hin' & B). injection E as <-.
  rewrite (in_unique k0 its v' v0 (wf_keys _ Wa) Hin' Hin) in B. exact (IH (wf_sub _ _ _ Wa Hin) B).
Qed.

Lemma wf_at a p b : well_formed a -> at_path a p b -> well_formed b.
Proof. intros W A. induction A as [|its k0 v0 p0 w Hin A IH]; [exact W|]. apply IH. exact (wf_sub _ _ _ W Hin). Qed.

Lemma some_end_point v : exists q u, at_path v q u /\ end_point u.
Proof.
  induction v as [|n|it IH] using meta_induction; [exists [], AnyValue; split; [constructor|exact I]|exists [], (Atom n); split; [constructor|exact I]|].
  destruct it as [|[k0 v0] it]; [exists [], (Dict []); split; [constructor|exact I]|]. apply Forall_inv in IH. destruct IH as (q & u & A & B).
  exists (k0 :: q), u. split; [econstructor; [left; reflexivity|exact A]|exact B].
Qed.

Lemma all_met_no_report state reqs : well_formed state -> all_met state reqs -> forall m, ~ reports state reqs m.
Proof.
  intros Hwf H m (p & req & st & k & v & P1 & P2 & P3 & P4). pose proof (wf_at _ _ _ Hwf P2) as Wst.
  destruct P4 as [[_ N]|(w & _ & Hw & (n & ->) & Hne)].
  - destruct (some_end_point v) as (q & u & Q1 & Q2).
    destruct (H (p ++ k :: q) u) as (w & W1 & _); [apply (at_path_app _ _ _ _ _ P1); econstructor; eassumption|exact Q2|].
    apply (at_path_split _ _ _ _ _ Hwf P2) in W1. apply at_path_cons_inv in W1. destruct W1 as (it & v' & E & Hin & _). injection E as <-. exact (N _ Hin).
  - destruct (H (p ++ [k]) (Atom n)) as (w' & W1 & W2); [apply (at_path_app _ _ _ _ _ P1); econstructor; [exact P3|constructor]|exact I|].
    apply (at_path_split _ _ _ _ _ Hwf P2) in W1. apply at_path_cons_inv in W1. destruct W1 as (it & v' & E & Hin & W1). injection E as <-.
    apply at_path_nil_inv in W1. subst w'. cbn in W2. subst v'. apply Hne. exact (in_unique k st _ _ (wf_keys _ Wst) Hin Hw).
Qed.

Lemma all_met_no_clash state reqs : well_formed state -> all_met state reqs -> ~ clash state reqs.
Proof.
  intros Hwf H (p & [k v] & req & w & P1 & P2 & P3). destruct (some_end_point v) as (q & u & Q1 & Q2).
  destruct (H (p ++ k :: q) u) as (w' & W1 & _); [apply (at_path_app _ _ _ _ _ P1); econstructor; [left; reflexivity|exact Q1]|exact Q2|].
  apply (at_path_split _ _ _ _ _ Hwf P2) in W1. apply at_path_cons_inv in W1. destruct W1 as (it & v' & E & _). exact (P3 it E).
Qed.

Lemma check_iff state items : well_formed state -> (check_requirements state (Dict items) = None <-> all_met state (Dict items)).
Proof.
  intros Hwf. unfold check_requirements. destruct (unsatisfied_error (Dict items) state Hwf) as [U1 U2].
  destruct (find_unsatisfied state (Dict items)) as [l|e] eqn:E.
  - pose proof (unsatisfied_messages _ _ _ Hwf E) as M. destruct l as [|m l].
    + split; [intros _; apply find_no_message; assumption|reflexivity].
    + split; [discriminate|]. intros H. exfalso. apply (all_met_no_report _ _ Hwf H m). apply M. left. reflexivity.
  - split; [discriminate|]. intros H. exfalso. apply (all_met_no_clash _ _ Hwf H). exact (proj2 (U1 e eq_refl)).
Qed.

Lemma messages_exact state items l : well_formed state -> find_unsatisfied state (Dict items) = Ok l ->
  forall m, In m l <-> reports state (Dict items) m.
Proof. intros H E. exact (unsatisfied_messages _ _ _ H E). Qed.

Lemma check_raises state items e : well_formed state -> check_requirements state (Dict items) = Some e ->
  (e = UnsatisfiedRequirementsError /\ ~ clash state (Dict items)) \/ (e = TypeError /\ clash state (Dict items)).
Proof.
  intros Hwf. unfold check_requirements. destruct (unsatisfied_error (Dict items) state Hwf) as [U1 U2].
  destruct (find_unsatisfied state (Dict items)) as [l|e'] eqn:E.
  - destruct l; [discriminate|]. intros [= <-]. left. split; [reflexivity|]. intros C. destruct (U2 C) as [e' E']. discriminate.
  - intros [= <-]. right. exact (U1 e' eq_refl).
Qed.

(** ** Clip *)

Lemma clip_nearest lo hi x : lo <= hi -> exists y, clip_value lo hi (Some x) = Some y /\ nearest_in lo hi x y.
Proof. intros H. exists (Z.min (Z.max x (Z.min lo hi)) (Z.max lo hi)). split; [reflexivity|]. unfold nearest_in. split; [lia|]. intros z Hz. lia. Qed.

Lemma clip_in_range lo hi x : lo <= x <= hi -> clip_value lo hi (Some x) = Some x.
Proof. intros H. cbn. f_equal. lia. Qed.

Lemma clip_nan lo hi : clip_value lo hi None = None.
Proof. reflexivity. Qed.

Lemma clip_twice lo hi v : clip_value lo hi (clip_value lo hi v) = clip_value lo hi v.
Proof. destruct v as [x|]; [|reflexivity]. cbn. f_equal. lia. Qed.

Lemma clip_monotone lo hi x y x' y' : x <= y -> clip_value lo hi (Some x) = Some x' -> clip_value lo hi (Some y) = Some y' -> x' <= y'.
Proof. cbn. intros H [= <-] [= <-]. lia. Qed.

Lemma clip_cells_length limits columns : forall cells, length (clip_cells limits columns cells) = length cells.
Proof. induction columns as [|c cs IH]; intros [|v vs]; cbn; try reflexivity. rewrite IH. reflexivity. Qed.

Lemma clip_cells_nth limits columns : forall cells k c, nth_error columns k = Some c ->
  nth_error (clip_cells limits columns cells) k =
  option_map (fun v => match limits c with Some (l, u) => clip_value l u v | None => v end) (nth_error cells k).
Proof.
  induction columns as [|d cs IH]; intros cells k c Hk; [destruct k; discriminate|]. destruct cells as [|v vs].
  - destruct k; cbn; reflexivity.
  - destruct k as [|k]; cbn in *; [injection Hk as ->; reflexivity|]. apply IH. exact Hk.
Qed.

Lemma clip_cells_twice limits columns : forall cells, clip_cells limits columns (clip_cells limits columns cells) = clip_cells limits columns cells.
Proof.
  induction columns as [|c cs IH]; intros [|v vs]; cbn; try reflexivity. rewrite IH. f_equal.
  destruct (limits c) as [[l u]|]; [apply clip_twice|reflexivity].
Qed.

(** The limits the property speaks of. *)
Lemma limits_spec lo hi ms c : (forall m m', In m ms -> In m' ms -> me_column m = me_column m' -> m = m') ->
  limits_for lo hi ms c =
  match (match lo with Some l => Some l | None => fst (find_limits c ms) end), (match hi with Some u => Some u | None => snd (find_limits c ms) end) with
  | Some l, Some u => Some (l, u) | _, _ => None end /\
  (forall m, In m ms -> me_column m = c -> find_limits c ms = (me_lower m, me_upper m)) /\
  ((forall m, In m ms -> me_column m <> c) -> find_limits c ms = (None, None)).
Proof.
  intros HU. split; [|split].
  - unfold limits_for. destruct (find_limits c ms). destruct lo, hi; reflexivity.
  - intros m Hm Em. unfold find_limits. destruct (find _ ms) as [m'|] eqn:E.
    + apply find_some in E. destruct E as [E1 E2]. apply col_eqb_spec in E2. rewrite (HU m' m E1 Hm ltac:(congruence)). reflexivity.
    + exfalso. apply (find_none _ _ E) in Hm. assert (col_eqb (me_column m) c = true) by (apply col_eqb_spec; exact Em). congruence.
  - intros H. unfold find_limits. destruct (find _ ms) as [m'|] eqn:E; [|reflexivity].
    apply find_some in E. destruct E as [E1 E2]. apply col_eqb_spec in E2. exfalso. exact (H _ E1 E2).
Qed.

(** Loading clipped rows is clipping the loaded chunks (the look-ahead rows
    are not clipped by the node, and no statistic reads their values). *)
Definition map_rows {A B} (f : A -> B) (rows : list (sample A)) : list (sample B) := map (fun r => (fst r, f (snd r))) rows.
Definition map_chunk {A B} (f : A -> B) (ch : chunk A) : chunk B :=
  mkChunk (map_rows f (c_rows ch)) (option_map (map_rows f) (c_look ch)) (c_tf ch).
Definition map_gen {A B} (f : A -> B) (g : gen (chunk A)) : gen (chunk B) := (map (map_chunk f) (fst g), snd g).

Lemma map_rows_fst {A B} (f : A -> B) rows : map fst (map_rows f rows) = map fst rows.
Proof. unfold map_rows. rewrite map_map. reflexivity. Qed.

Lemma select_map {A B} (f : A -> B) rows s e : select (map_rows f rows) s e = map_rows f (select rows s e).
Proof. unfold select, map_rows. rewrite skipn_map, firstn_map. reflexivity. Qed.

Lemma coords_map {A B} (f : A -> B) q rows : forall i, coords_from i q (map_rows f rows) = coords_from i q rows.
Proof. induction rows as [|r rows IH]; intros i; [reflexivity|]. cbn [map_rows map coords_from fst]. fold (map_rows f rows). rewrite IH. reflexivity. Qed.

Lemma hdf_chunks_map {A B} (f : A -> B) rows w n c nc e starts : forall i,
  hdf_chunks (map_rows f rows) w n c nc e i starts = map_gen f (hdf_chunks rows w n c nc e i starts).
Proof.
  induction starts as [|st starts IH]; intros i; [reflexivity|]. cbn [hdf_chunks]. cbv zeta. rewrite select_map, map_rows_fst.
  destruct (timeframe_for_chunk _ i w _) as [t|]; [|reflexivity]. rewrite IH. unfold map_gen, gen_cons. cbn [fst snd map]. f_equal. f_equal.
  unfold map_chunk. cbn [c_rows c_look c_tf]. f_equal. unfold look_ahead_rows. destruct (Nat.ltb 0 n); [|reflexivity].
  match goal with |- match map_rows f ?x with _ => _ end = _ => destruct x end; [reflexivity|]. cbn [map_rows map option_map]. rewrite <- select_map. reflexivity.
Qed.

Lemma hdf_load_map {A B} (f : A -> B) rows window sections n c :
  hdf_load (map_rows f rows) window sections n c = map_gen f (hdf_load rows window sections n c).
Proof.
  assert (HS : forall s, hdf_load_section (map_rows f rows) window s n c = map_gen f (hdf_load_section rows window s n c)).
  { intros s. unfold hdf_load_section. destruct (intersection window s) as [w|]; [|reflexivity]. destruct (tf_empty w); [reflexivity|].
    destruct (query_terms w) as [[q|]|]; [| |reflexivity].
    - rewrite coords_map. destruct (coords_from 0 (Some q) rows) as [|c0 cs]; [reflexivity|]. destruct (last_opt (c0 :: cs)); [|reflexivity].
      unfold hdf_range. destruct (Nat.eqb c 0); [reflexivity|]. apply hdf_chunks_map.
    - cbv zeta. assert (EL : length (map_rows f rows) = length rows) by apply map_length. rewrite !EL. destruct (Nat.leb (length rows) 1); [reflexivity|].
      unfold hdf_range. destruct (Nat.eqb c 0); [reflexivity|]. apply hdf_chunks_map. }
  induction sections as [|s sections IH]; [reflexivity|]. cbn [hdf_load]. rewrite HS, IH.
  destruct (hdf_load_section rows window s n c) as [l [e|]]; unfold map_gen, gen_app; cbn [fst snd]; [reflexivity|]. rewrite map_app. reflexivity.
Qed.

Lemma energy_ignores_look columns msp a (g g' : gen (chunk (list (option Z)))) :
  map (fun ch => (c_rows ch, c_tf ch)) (fst g) = map (fun ch => (c_rows ch, c_tf ch)) (fst g') -> snd g = snd g' ->
  total_energy_of columns msp a g = total_energy_of columns msp a g'.
Proof.
  intros H1 H2. unfold total_energy_of. f_equal. unfold energy_process. rewrite H2.
  enough (E : forall d, foldM (fun d ch => do e <- get_total_energy columns (c_rows ch) msp; ResultsModel.results_append d (c_tf ch) e) (fst g) d =
              foldM (fun d ch => do e <- get_total_energy columns (c_rows ch) msp; ResultsModel.results_append d (c_tf ch) e) (fst g') d) by (rewrite E; reflexivity).
  revert H1. generalize (fst g) as l, (fst g') as l'. induction l as [|x l IH]; intros [|x' l'] H d; try discriminate; [reflexivity|].
  cbn [map] in H. injection H as E1 E2 H. cbn [foldM]. rewrite E1, E2.
  match goal with |- bind ?m _ = _ => destruct m as [d'|] end; cbn [bind]; [apply IH; exact H|reflexivity].
Qed.

Lemma clip_then_energy limits columns msp a rows window sections n c :
  total_energy_of columns msp a (clip_process limits columns (hdf_load rows window sections n c)) =
  total_energy_of columns msp a (hdf_load (clip_chunk limits columns rows) window sections n c).
Proof.
  apply energy_ignores_look; change (clip_chunk limits columns rows) with (map_rows (clip_cells limits columns) rows); rewrite hdf_load_map.
  - unfold clip_process, map_gen. cbn [fst]. rewrite !map_map. apply map_ext. intros ch. reflexivity.
  - reflexivity.
Qed.

(** ** AC types *)

Lemma acname_eqb_spec x y : acname_eqb x y = true <-> x = y.
Proof.
  destruct x as [[]|n], y as [[]|m]; cbn; try (split; congruence || discriminate). rewrite Nat.eqb_eq. split; congruence.
Qed.

Lemma mem_name_spec x l : mem_name x l = true <-> In x l.
Proof.
  unfold mem_name. rewrite existsb_exists. split.
  - intros (y & H & E). apply acname_eqb_spec in E. congruence.
  - intros H. exists x. split; [exact H|]. apply acname_eqb_spec. reflexivity.
Qed.

Lemma mem_name_not x l : mem_name x l = false <-> ~ In x l.
Proof. rewrite <- mem_name_spec. destruct (mem_name x l); split; congruence. Qed.

(** The first name of a sublist of the preference list that is available. *)
Lemma best_first (p : acname -> bool) available r :
  find (fun a => mem_name a available) (filter p AC_TYPES) = r ->
  match r with
  | Some a => In a available /\ (exists k, a = Known k) /\ p a = true /\ forall b, In b available -> (exists k, b = Known k) -> p b = true -> ~ better b a
  | None => forall k, In (Known k) available -> p (Known k) = false
  end.
Proof.
  intros <-. unfold AC_TYPES. cbn [filter].
  destruct (mem_name (Known Active) available) eqn:M1; destruct (mem_name (Known Apparent) available) eqn:M2; destruct (mem_name (Known Reactive) available) eqn:M3;
  destruct (p (Known Active)) eqn:P1; destruct (p (Known Apparent)) eqn:P2; destruct (p (Known Reactive)) eqn:P3; cbn [find]; rewrite ?M1, ?M2, ?M3;
  rewrite ?mem_name_spec, ?mem_name_not in M1; rewrite ?mem_name_spec, ?mem_name_not in M2; rewrite ?mem_name_spec, ?mem_name_not in M3;
  try (split; [assumption|]; split; [eexists; reflexivity|]; split; [assumption|]; intros b Hb [k ->] Hp; destruct k; cbn; try tauto; try congruence; contradiction);
  intros [] Hk; try assumption; contradiction.
Qed.

Lemma filter_true {A} (l : list A) : filter (fun _ => true) l = l.
Proof. induction l as [|x l IH]; cbn; congruence. Qed.

Lemma best_outcome available mains :
  match select_best_ac_type available mains with
  | Ok a => In a available /\ (exists k, a = Known k) /\
            (forall b, In b available -> (exists k, b = Known k) ->
               match mains with
               | Some m => (In b m -> In a m) /\ ((In a m <-> In b m) -> ~ better b a)
               | None => ~ better b a
               end)
  | Err e => e = KeyError /\ forall k, ~ In (Known k) available
  end.
Proof.
  assert (All : match find (fun a => mem_name a available) AC_TYPES with
    | Some a => In a available /\ (exists k, a = Known k) /\ forall b, In b available -> (exists k, b = Known k) -> ~ better b a
    | None => forall k, ~ In (Known k) available end).
  { pose proof (best_first (fun _ => true) available _ eq_refl) as B. rewrite filter_true in B.
    destruct (find (fun a => mem_name a available) AC_TYPES) as [a|].
    - destruct B as (B1 & B2 & _ & B3). split; [exact B1|]. split; [exact B2|]. intros b Hb Hk. exact (B3 b Hb Hk eq_refl).
    - intros k Hk. specialize (B k Hk). discriminate. }
  unfold select_best_ac_type. destruct mains as [m|].
  - pose proof (best_first (fun a => mem_name a m) available _ eq_refl) as B.
    destruct (find (fun a => mem_name a available) (filter (fun a => mem_name a m) AC_TYPES)) as [a|].
    + destruct B as (B1 & B2 & B3 & B4). apply mem_name_spec in B3. split; [exact B1|]. split; [exact B2|]. intros b Hb Hk. split; [intros _; exact B3|].
      intros Hiff. apply B4; [exact Hb|exact Hk|]. apply mem_name_spec. tauto.
    + destruct (find (fun a => mem_name a available) AC_TYPES) as [a|].
      * destruct All as (A1 & A2 & A3). split; [exact A1|]. split; [exact A2|]. intros b Hb [k ->]. split.
        -- intros Hm. exfalso. specialize (B k Hb). apply mem_name_not in B. contradiction.
        -- intros _. apply A3; [exact Hb|eexists; reflexivity].
      * split; [reflexivity|exact All].
  - destruct (find (fun a => mem_name a available) AC_TYPES) as [a|].
    + destruct All as (A1 & A2 & A3). split; [exact A1|]. split; [exact A2|exact A3].
    + split; [reflexivity|exact All].
Qed.

Lemma best_set_only available available' mains mains' : (forall x, In x available <-> In x available') ->
  match mains, mains' with Some m, Some m' => forall x, In x m <-> In x m' | None, None => True | _, _ => False end ->
  select_best_ac_type available mains = select_best_ac_type available' mains'.
Proof.
  intros H Hm.
  assert (M : forall l l', (forall x, In x l <-> In x l') -> forall a, mem_name a l = mem_name a l').
  { intros l l' Hl a. destruct (mem_name a l) eqn:E; symmetry; [apply mem_name_spec, Hl, mem_name_spec; exact E|].
    apply mem_name_not. rewrite <- Hl. apply mem_name_not. exact E. }
  assert (Fi : forall l, find (fun a => mem_name a available) l = find (fun a => mem_name a available') l).
  { intros l. induction l as [|x l IH]; [reflexivity|]. cbn. rewrite (M _ _ H x), IH. reflexivity. }
  unfold select_best_ac_type. destruct mains as [m|], mains' as [m'|]; try destruct Hm; rewrite !Fi; [|reflexivity].
  rewrite (filter_ext (fun a => mem_name a m) (fun a => mem_name a m')) by (apply M; exact Hm). reflexivity.
Qed.

Lemma limits_in_force lo hi ms c l u : described_once ms ->
  limit_in_force lo me_lower ms c l -> limit_in_force hi me_upper ms c u ->
  limits_for lo hi ms c = match l, u with Some a, Some b => Some (a, b) | _, _ => None end.
Proof.
  intros HD Hl Hu. destruct (limits_spec lo hi ms c HD) as (E & F1 & F2). rewrite E.
  assert (El : (match lo with Some l0 => Some l0 | None => fst (find_limits c ms) end) = l).
  { destruct lo as [x|]; cbn in Hl; [congruence|]. destruct Hl as [(m & M1 & M2 & ->)|[H ->]]; [rewrite (F1 m M1 M2)|rewrite (F2 H)]; reflexivity. }
  assert (Eu : (match hi with Some u0 => Some u0 | None => snd (find_limits c ms) end) = u).
  { destruct hi as [x|]; cbn in Hu; [congruence|]. destruct Hu as [(m & M1 & M2 & ->)|[H ->]]; [rewrite (F1 m M1 M2)|rewrite (F2 H)]; reflexivity. }
  rewrite El, Eu. reflexivity.
Qed.

Lemma clip_keeps_shape limits columns df :
  map fst (clip_chunk limits columns df) = map fst df /\
  map (fun r => length (snd r)) (clip_chunk limits columns df) = map (fun r => length (snd r)) df.
Proof.
  unfold clip_chunk. rewrite !map_map. split; apply map_ext; intros r; [reflexivity|]. cbn [snd]. apply clip_cells_length.
Qed.

Lemma clip_cell lo hi ms columns df i r k c v l u : described_once ms ->
  nth_error df i = Some r -> nth_error columns k = Some c -> nth_error (snd r) k = Some v ->
  limit_in_force lo me_lower ms c l -> limit_in_force hi me_upper ms c u ->
  exists r' v', nth_error (clip_chunk (limits_for lo hi ms) columns df) i = Some r' /\ fst r' = fst r /\ nth_error (snd r') k = Some v' /\
    match l, u, v with
    | Some a, Some b, Some x => a <= b -> exists y, v' = Some y /\ nearest_in a b x y
    | _, _, _ => v' = v
    end.
Proof.
  intros HD Hi Hk Hv Hl Hu. unfold clip_chunk. rewrite nth_error_map, Hi. cbn [option_map]. eexists _, _. split; [reflexivity|]. split; [reflexivity|].
  cbn [snd]. rewrite (clip_cells_nth _ _ _ _ _ Hk), Hv. cbn [option_map]. split; [reflexivity|]. rewrite (limits_in_force _ _ _ _ _ _ HD Hl Hu).
  destruct l as [a|], u as [b|], v as [x|]; try reflexivity. intros H. destruct (clip_nearest a b x H) as (y & -> & Hy). exists y. auto.
Qed.

Lemma clip_chunk_twice limits columns df : clip_chunk limits columns (clip_chunk limits columns df) = clip_chunk limits columns df.
Proof. unfold clip_chunk. rewrite map_map. apply map_ext. intros r. cbn [fst snd]. rewrite clip_cells_twice. reflexivity. Qed.

Lemma clip_chunk_app limits columns a b : clip_chunk limits columns (a ++ b) = clip_chunk limits columns a ++ clip_chunk limits columns b.
Proof. apply map_app. Qed.

Lemma one_sided : exists ms c x, described_once ms /\ In (mkMeas c (Some 0) None) ms /\ x < 0 /\
  clip_chunk (limits_for None None ms) [c] [(0, [Some x])] = [(0, [Some x])].
Proof. exists [mkMeas (Power, Some Active) (Some 0) None], (Power, Some Active), (-5). split; [intros m m' [<-|[]] [<-|[]] _; reflexivity|]. split; [left; reflexivity|]. split; [lia|reflexivity]. Qed.
