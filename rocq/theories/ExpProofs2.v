(** Proofs about experiments: the report on one house, training. *)
From Coq Require Import String.
From Verif Require Import Base ApiModel ApiSpec ApiProofs ExpModel ExpSpec ExpProofs.
Import List.
Open Scope list_scope.
Open Scope Z_scope.

Lemma F2_In_r {A B} (R : A -> B -> Prop) l m y : Forall2 R l m -> In y m -> exists x, In x l /\ R x y.
Proof. induction 1 as [|x z l m H1 H2 IH]; intros Hy; [destruct Hy|]. destruct Hy as [<-|Hy]; [exists x; split; [left; reflexivity|exact H1]|]. destruct (IH Hy) as (w & W1 & W2). exists w. split; [right; exact W1|exact W2]. Qed.
Lemma F2_map_r {A B C} (g : B -> C) (R : A -> C -> Prop) l m : Forall2 (fun a b => R a (g b)) l m -> Forall2 R l (map g m).
Proof. induction 1; constructor; auto. Qed.

Lemma prepare_spec agg mains apps : rising (index mains) -> apps <> [] -> (forall a, In a apps -> one_column a) ->
  exists ix given apps', prepare true agg mains apps = Ok (given, apps') /\ rising ix /\ (forall t, In t ix <-> usable mains apps t) /\
    given_mains agg mains apps ix given /\ Forall2 (fun a a' => restricted a ix a') apps apps' /\
    Forall (fun a' => forall r, In r a' -> ~ In None (snd r)) apps'.
Proof.
  intros HM Hne H1. destruct (dropna_spec mains apps HM) as (ix & m' & nw & E & HI & Hu & Rm & Rn & _ & Nn). unfold prepare. rewrite E. cbn [bind].
  destruct agg; [|exists ix, m', nw; split; [reflexivity|]; split; [exact HI|]; split; [exact Hu|]; split; [exact Rm|]; split; [exact Rn|exact Nn]].
  destruct (aggregate_after_dropna mains apps m' nw _ HM Hne (proj2 (Forall_forall _ _) H1) E) as (f & Ef & If & Hf). rewrite Ef. cbn [bind].
  assert (Ix : index f = ix) by (rewrite If; apply Rm).
  exists ix, f, nw. split; [reflexivity|]. split; [exact HI|]. split; [exact Hu|]. split; [|split; [exact Rn|exact Nn]]. split; [exact Ix|].
  intros t c Hc. destruct (Hf t (in_map fst _ _ Hc)) as (vs & V1 & V2). exists vs. split; [exact V1|]. apply row_at_some in V2. apply (rising_unique f t); [rewrite Ix; exact HI|exact Hc|apply V2].
Qed.

(** ** The ground truth of one house *)
Lemma dict_set_fresh {V} n (v : V) d : ~ In n (map fst d) -> dict_set n v d = d ++ [(n, v)].
Proof.
  induction d as [|[k w] d IH]; intros H; [reflexivity|]. cbn [dict_set app]. destruct (String.eqb n k) eqn:E; [apply String.eqb_eq in E; subst; destruct H; left; reflexivity|].
  rewrite IH; [reflexivity|]. intros K. apply H. right. exact K.
Qed.
Lemma set_all_fresh {V} (l : list (string * V)) : forall d, NoDup (map fst (d ++ l)) -> set_all l d = d ++ l.
Proof.
  induction l as [|[n v] l IH]; intros d H; [cbn; rewrite app_nil_r; reflexivity|]. cbn [set_all fold_left fst snd]. rewrite dict_set_fresh.
  - unfold set_all in IH. rewrite IH; [rewrite <- app_assoc; reflexivity|]. rewrite <- app_assoc. exact H.
  - rewrite map_app in H. cbn [map fst] in H. apply NoDup_remove_2 in H. intros K. apply H. apply in_or_app. left. exact K.
Qed.
Lemma series_of_column f : one_column f -> series_of f = Ok (column f).
Proof.
  intros H. unfold series_of. replace (forallb _ f) with true; [reflexivity|]. symmetry. apply forallb_forall. intros r Hr. apply Nat.eqb_eq. apply H. exact Hr.
Qed.
Lemma truth_of_columns names apps : NoDup names -> length apps = length names -> (forall a, In a apps -> one_column a) ->
  truth_of (combine names apps) = Ok (combine names (map column apps)).
Proof.
  intros ND HL H1. unfold truth_of. rewrite truth_fold. replace (mapM _ (combine names apps)) with (Ok (map column apps)).
  - cbn [bind]. rewrite map_fst_combine by exact HL. rewrite set_all_fresh; [reflexivity|]. cbn [app]. rewrite map_fst_combine; [exact ND|rewrite map_length; exact HL].
  - symmetry. clear ND. revert apps HL H1. induction names as [|n names IH]; intros [|a apps] HL H1; try discriminate; [reflexivity|]. cbn [combine mapM snd map].
    rewrite series_of_column by (apply H1; left; reflexivity). cbn [bind]. rewrite IH; [reflexivity|cbn in HL; lia|]. intros b Hb. apply H1. right. exact Hb.
Qed.
Lemma column_index f : map fst (column f) = index f.
Proof. unfold column, index. rewrite map_map. reflexivity. Qed.
Lemma in_combine_map {A B C} (g : B -> C) (l : list A) : forall (m : list B) a c, In (a, c) (combine l (map g m)) -> exists b, In (a, b) (combine l m) /\ c = g b.
Proof. induction l as [|x l IH]; intros [|y m] a c H; try destruct H. - injection H as <- <-. exists y. split; [left; reflexivity|reflexivity]. - destruct (IH m a c H) as (b & B1 & B2). exists b. split; [right; exact B1|exact B2]. Qed.

Lemma in_combine_F2 {A B} (R : A -> B -> Prop) l m a b : Forall2 R l m -> In (a, b) (combine l m) -> R a b.
Proof. induction 1 as [|x y l m H1 H2 IH]; intros H; [destruct H|]. destruct H as [[= <- <-]|H]; [exact H1|apply IH; exact H]. Qed.

Lemma series_ok (vs : list Z) ix : (length ix <= length vs)%nat -> series_with (firstn (length ix) vs) ix = Ok (combine ix (firstn (length ix) vs)).
Proof. intros H. unfold series_with. rewrite firstn_length. replace (Nat.min (length ix) (length vs)) with (length ix) by lia. rewrite Nat.eqb_refl. reflexivity. Qed.

Section Exp.
Context {L : Type}.
Variable loss : string -> option (list (Z * option Z) -> list (Z * Z) -> L).
Notation classifier := (string * (frame -> list (string * list Z)))%type.
Notation supported := (fun m => match loss m with Some _ => true | None => false end).

Lemma metrics_fold {T} (table : (list (Z * option Z) -> list (Z * Z) -> L) -> res T) (P : (list (Z * option Z) -> list (Z * Z) -> L) -> T -> Prop) metrics :
  (forall f, exists t, table f = Ok t /\ P f t) -> forall acc,
  exists reports, foldM (fun acc m => match loss m with None => Ok acc | Some f => do t <- table f; Ok (acc ++ [(m, t)]) end) metrics acc = Ok (acc ++ reports) /\
    map fst reports = filter supported metrics /\ forall m t, In (m, t) reports -> exists f, loss m = Some f /\ P f t.
Proof.
  intros HT. induction metrics as [|m metrics IH]; intros acc; [exists []; rewrite app_nil_r; split; [reflexivity|]; split; [reflexivity|intros m t []]|].
  cbn [foldM filter]. destruct (loss m) as [f|] eqn:E; [|cbn [bind]; apply IH]. destruct (HT f) as (t & Et & Pt). rewrite Et. cbn [bind]. destruct (IH (acc ++ [(m, t)])) as (reports & R1 & R2 & R3).
  exists ((m, t) :: reports). rewrite R1, <- app_assoc. split; [reflexivity|]. cbn [map fst]. rewrite R2. split; [reflexivity|]. intros m' t' [[= <- <-]|H]; [exists f; split; assumption|apply R3; exact H].
Qed.

Lemma last_opt_some {A} (l : list A) : l <> [] -> exists x, last_opt l = Some x /\ In x l.
Proof.
  induction l as [|x l IH]; intros H; [contradiction|]. destruct l as [|y l]; [exists x; split; [reflexivity|left; reflexivity]|]. destruct IH as (z & Z1 & Z2); [discriminate|].
  exists z. split; [exact Z1|right; exact Z2].
Qed.

Lemma call_predict_spec names metrics (cl : list classifier) ix given apps : NoDup names -> names <> [] -> rising ix ->
  length apps = length names -> (forall a, In a apps -> one_column a /\ index a = ix) -> length given = length ix ->
  cl <> [] -> (forall c, In c cl -> predicts names (snd c)) ->
  exists reports, call_predict loss metrics cl given (combine names apps) = Ok reports /\
    (ix = [] -> reports = []) /\
    (ix <> [] -> map fst reports = filter supported metrics /\
      forall m table, In (m, table) reports -> exists f, loss m = Some f /\
        Forall2 (fun c row => fst row = fst c /\ map fst (snd row) = names /\
          forall a l, In (a, l) (snd row) -> exists app values,
            l = f (map (fun t => (t, truth_at (column app) t)) ix) (combine ix (firstn (length ix) values)) /\
            In (a, values) (snd c given) /\ In (a, app) (combine names apps)) cl table).
Proof.
  intros ND Hne HI HL HA HG Hcl HP. set (d := combine names (map column apps)).
  assert (Td : truth_of (combine names apps) = Ok d) by (apply truth_of_columns; [exact ND|exact HL|intros a Ha; apply HA; exact Ha]).
  assert (Kd : map fst d = names) by (apply map_fst_combine; rewrite map_length; exact HL).
  assert (Ix : gt_index d = ix).
  { unfold gt_index. apply union_same; [exact HI| |].
    - intros E. apply map_eq_nil in E. rewrite E in Kd. cbn in Kd. congruence.
    - intros i Hi. apply in_map_iff in Hi. destruct Hi as ([n s] & <- & Hs). cbn [snd]. unfold d in Hs. apply in_combine_map in Hs. destruct Hs as (a & Ha & ->). rewrite column_index. apply HA. apply (in_combine_r names apps n a Ha). }
  set (gt := gt_table d). assert (Kg : map fst gt = names) by (unfold gt, gt_table; rewrite map_map; cbn [fst]; exact Kd).
  assert (Lg : forall n g, lookup n gt = Some g -> length g = length ix).
  { intros n g H. apply lookup_some in H. unfold gt, gt_table in H. apply in_map_iff in H. destruct H as (e & [= _ <-] & _). rewrite map_length, Ix. reflexivity. }
  set (pr := fun columns : list (string * list Z) => map (fun c => (fst c, combine ix (firstn (length ix) (snd c)))) columns).
  assert (PN : forall c, In c cl -> predict_named (combine names apps) (snd c given) = Ok (gt, pr (snd c given))).
  { intros c Hc. destruct (HP c Hc given) as (_ & P2 & P3). unfold predict_named. rewrite Td. cbn [bind]. fold gt. rewrite Ix.
    replace (mapM _ (snd c given)) with (Ok (pr (snd c given))); [reflexivity|]. symmetry. unfold pr.
    assert (G : forall l, (forall e, In e l -> In e (snd c given)) -> mapM (fun c0 => match lookup (fst c0) gt with None => Err KeyError | Some g => do s <- series_with (firstn (length g) (snd c0)) ix; Ok (fst c0, s) end) l =
      Ok (map (fun c0 => (fst c0, combine ix (firstn (length ix) (snd c0)))) l)); [|apply G; auto].
    induction l as [|[n vs] l IH]; intros Hl; [reflexivity|]. cbn [mapM map fst snd]. specialize (Hl (n, vs)) as Hn. specialize (Hn (or_introl eq_refl)).
    assert (N : lookup n gt <> None). { apply lookup_in. rewrite Kg. apply P2. apply (in_map fst) in Hn. exact Hn. }
    destruct (lookup n gt) as [g|] eqn:Eg; [|contradiction]. rewrite (Lg n g Eg). specialize (P3 n vs Hn). rewrite HG in P3. rewrite (series_ok vs ix P3). cbn [bind]. rewrite IH by (intros e He; apply Hl; right; exact He). reflexivity. }
  set (results := map (fun c : classifier => (fst c, (gt, pr (snd c given)))) cl).
  assert (RS : mapM (fun c : classifier => do gp <- predict_named (combine names apps) (snd c given); Ok (fst c, gp)) cl = Ok results).
  { unfold results. clear Hcl results. induction cl as [|c cl IH]; [reflexivity|]. cbn [mapM map]. rewrite PN by (left; reflexivity). cbn [bind]. rewrite IH; [reflexivity| |]; intros c' Hc'; [apply HP|apply PN]; right; exact Hc'. }
  unfold call_predict. rewrite RS. cbn [bind]. destruct (last_opt_some results) as ([cn [g0 p0]] & El & Il); [intros E; apply map_eq_nil in E; contradiction|]. rewrite El.
  assert (g0 = gt). { unfold results in Il. apply in_map_iff in Il. destruct Il as (c & [= _ E _] & _). symmetry. exact E. } subst g0.
  assert (NS : no_samples gt = match ix with [] => true | _ => false end).
  { unfold no_samples, gt, gt_table. rewrite Ix. destruct d as [|e d']; [cbn in Kd; congruence|]. cbn [map]. destruct ix; reflexivity. }
  rewrite NS. destruct (list_eq_dec Z.eq_dec ix []) as [EI|EI].
  { replace (match ix with [] => true | _ => false end) with true by (rewrite EI; reflexivity). exists []. split; [reflexivity|]. split; [reflexivity|intros H; contradiction]. }
  replace (match ix with [] => true | _ => false end) with false by (destruct ix; [contradiction|reflexivity]).
  destruct (metrics_fold (fun f => mapM (fun r => do row <- compute_loss gt (snd (snd r)) f; Ok (fst r, row)) results)
    (fun f table => Forall2 (fun c row => fst row = fst c /\ map fst (snd row) = names /\
          forall a l, In (a, l) (snd row) -> exists app values,
            l = f (map (fun t => (t, truth_at (column app) t)) ix) (combine ix (firstn (length ix) values)) /\
            In (a, values) (snd c given) /\ In (a, app) (combine names apps)) cl table) metrics) with (acc := @nil (string * list (string * list (string * L)))) as (reports & R1 & R2 & R3).
  - intros f. unfold results. destruct (mapM_F2 (fun r : string * (list (string * list (Z * option Z)) * list (string * list (Z * Z))) => do row <- compute_loss gt (snd (snd r)) f; Ok (fst r, row))
      (fun r row => fst row = fst r /\ map fst (snd row) = names /\
          forall a l, In (a, l) (snd row) -> exists app p, In (a, app) (combine names apps) /\ In (a, p) (snd (snd r)) /\ l = f (map (fun t => (t, truth_at (column app) t)) ix) p) results) as (table & E & F).
    + intros r Hr. unfold results in Hr. apply in_map_iff in Hr. destruct Hr as (c & <- & Hc). cbn [fst snd].
      assert (KP : forall n, In n names -> lookup n (pr (snd c given)) <> None).
      { intros n Hn. apply lookup_in. unfold pr. rewrite map_map. cbn [fst]. apply (proj1 (proj2 (HP c Hc given))). exact Hn. }
      assert (CL : exists row, compute_loss gt (pr (snd c given)) f = Ok row /\ Forall2 (fun g e => fst e = fst g /\ exists p, lookup (fst g) (pr (snd c given)) = Some p /\ snd e = f (snd g) p) gt row).
      { unfold compute_loss. apply mapM_F2. intros g Hg. destruct (lookup (fst g) (pr (snd c given))) as [p|] eqn:Ep; [|exfalso; apply (KP (fst g)); [rewrite <- Kg; apply in_map; exact Hg|exact Ep]].
        exists (fst g, f (snd g) p). split; [reflexivity|]. split; [reflexivity|]. exists p. split; reflexivity. }
      destruct CL as (row & Er & Fr). rewrite Er. exists (fst c, row). split; [reflexivity|]. cbn [fst snd]. split; [reflexivity|]. split.
      * rewrite <- Kg. clear -Fr. induction Fr as [|g e l m H1 H2 IH]; [reflexivity|]. cbn. destruct H1 as [-> _]. rewrite IH. reflexivity.
      * intros a l Hal. destruct (F2_In_r _ _ _ _ Fr Hal) as ([n s] & Hg & E1 & p & Ep & E2). cbn [fst snd] in *. subst n.
        unfold gt, gt_table in Hg. rewrite Ix in Hg. apply in_map_iff in Hg. destruct Hg as ([n' s'] & E3 & Hd). cbn [fst snd] in E3. injection E3 as -> <-. unfold d in Hd. apply in_combine_map in Hd. destruct Hd as (app & Happ & ->).
        exists app, p. split; [exact Happ|]. split; [apply lookup_some; exact Ep|exact E2].
    + exists table. split; [exact E|]. unfold results in F. apply F2_map_l in F. revert F. apply F2_imp. intros c row (A1 & A2 & A3). cbn [fst snd] in *. split; [exact A1|]. split; [exact A2|].
      intros a l Hal. destruct (A3 a l Hal) as (app & p & B1 & B2 & B3). unfold pr in B2. apply in_map_iff in B2. destruct B2 as ([n values] & E4 & Hv). cbn [fst snd] in E4. injection E4 as -> <-. exists app, values. split; [exact B3|]. split; [exact Hv|exact B1].
  - exists reports. split; [exact R1|]. split; [intros H; contradiction|]. intros _. split; [exact R2|exact R3].
Qed.

Lemma next_first {K} names (h : house K) : (forall n, In n names -> h_app h n <> []) -> mapM (fun n => next (h_app h n)) names = Ok (map (fun n => first_chunk (h_app h n)) names).
Proof.
  induction names as [|n names IH]; intros H; [reflexivity|]. cbn [mapM map]. destruct (h_app h n) as [|f l] eqn:E; [exfalso; apply (H n); [left; reflexivity|exact E]|].
  cbn [next bind first_chunk hd]. rewrite IH; [reflexivity|]. intros k Hk. apply H. right. exact Hk.
Qed.
Lemma restricted_one a ix a' : one_column a -> restricted a ix a' -> one_column a'.
Proof. intros H [_ R] r Hr. apply H. apply R. exact Hr. Qed.

Lemma test_house_faithful {K} agg names metrics (cl : list classifier) (h : house K) : NoDup names -> names <> [] -> cl <> [] ->
  (forall c, In c cl -> predicts names (snd c)) -> testable names h ->
  exists reports, test_jointly loss true agg names metrics cl [h] = Ok (map (fun r => (h_key h, r)) reports) /\
    faithful loss agg names metrics cl (first_chunk (h_mains h)) (fun n => first_chunk (h_app h n)) reports.
Proof.
  intros ND Hne Hcl HP (T1 & T2 & T3). rewrite test_jointly_one. unfold test_house. destruct (h_mains h) as [|m rest]; [contradiction|]. cbn [next bind first_chunk hd] in *.
  rewrite next_first by (intros n Hn; apply T3; exact Hn). cbn [bind]. set (apps := map (fun n => first_chunk (h_app h n)) names).
  assert (HA : forall a, In a apps -> readings a) by (intros a Ha; apply in_map_iff in Ha; destruct Ha as (n & <- & Hn); apply T3; exact Hn).
  destruct (prepare_spec agg m apps T2) as (ix & given & apps' & Ep & HI & Hu & Gm & Fr & Nn); [intros E; apply map_eq_nil in E; contradiction|intros a Ha; apply (proj2 (HA a Ha))|].
  rewrite Ep. cbn [bind fst snd app]. pose proof (prepare_length _ _ _ _ _ _ Ep) as Lp. unfold apps in Lp at 1. rewrite map_length in Lp.
  destruct (call_predict_spec names metrics cl ix given apps' ND Hne HI) as (reports & Ec & R1 & R2); [exact Lp| | |exact Hcl|exact HP|].
  - intros a' Ha'. destruct (F2_In_r _ _ _ _ Fr Ha') as (a & Ha & Ra). split; [apply (restricted_one a ix a'); [apply HA; exact Ha|exact Ra]|apply Ra].
  - destruct agg; cbn [given_mains] in Gm; [destruct Gm as [Gm _]|destruct Gm as [Gm _]]; rewrite <- Gm, map_length; reflexivity.
  - rewrite Ec. cbn [bind]. exists reports. split; [reflexivity|]. exists ix, given. split; [exact HI|]. split; [exact Hu|]. split; [exact Gm|]. split; [exact R1|]. intros Hix. destruct (R2 Hix) as [S1 S2]. split; [exact S1|].
    intros mt table Hmt. destruct (S2 mt table Hmt) as (f & Ef & F). exists f. split; [exact Ef|]. revert F. apply F2_imp. intros c row (A1 & A2 & A3). split; [exact A1|]. split; [exact A2|].
    intros a l Hal. destruct (A3 a l Hal) as (app & values & B1 & B2 & B3). exists (map (fun t => (t, truth_at (column app) t)) ix), values. split; [exact B1|]. split; [exact B2|]. split; [rewrite map_map; apply map_id|].
    intros t v Htv. apply in_map_iff in Htv. destruct Htv as (t' & [= -> <-] & Ht).
    assert (RA : In app apps' /\ restricted (first_chunk (h_app h a)) ix app).
    { split; [apply (in_combine_r names apps' a app B3)|]. unfold apps in Fr. apply F2_map_l in Fr. apply (in_combine_F2 _ _ _ _ _ Fr B3). }
    destruct RA as [RA1 [RA2 RA3]]. destruct (row_at_in app t) as [c0 Hc0]; [unfold index; rewrite RA2; exact Ht|]. destruct (row_at_some _ _ _ Hc0) as [Hin _]. pose proof (RA3 _ Hin) as Hin'.
    assert (O1 : one_column (first_chunk (h_app h a))) by (apply T3; apply (in_combine_l names apps' a app B3)). specialize (O1 _ Hin'). cbn [snd] in O1.
    rewrite Forall_forall in Nn. specialize (Nn app RA1 _ Hin). cbn [snd] in Nn. destruct c0 as [|[x|] [|y c0]]; try discriminate; [|exfalso; apply Nn; left; reflexivity].
    exists x. split; [|exact Hin']. unfold truth_at, column. clear -Hc0. revert Hc0. unfold row_at. induction app as [|[t' c'] app IH]; cbn [find map fst snd]; [discriminate|].
    destruct (t' =? t) eqn:E; [intros [= _ ->]; reflexivity|exact IH].
Qed.

(** A prediction for an appliance the experiment does not have. *)
Lemma test_house_extra {K} agg names metrics cn g (cl : list classifier) (h : house K) : NoDup names -> names <> [] -> testable names h ->
  (forall f, (exists n vs, In (n, vs) (g f) /\ ~ In n names) /\ forall n vs, In (n, vs) (g f) -> (length f <= length vs)%nat) ->
  test_jointly loss true agg names metrics ((cn, g) :: cl) [h] = Err KeyError.
Proof.
  intros ND Hne (T1 & T2 & T3) HX. rewrite test_jointly_one. unfold test_house. destruct (h_mains h) as [|m rest]; [contradiction|]. cbn [next bind first_chunk hd] in *.
  rewrite next_first by (intros n Hn; apply T3; exact Hn). cbn [bind]. set (apps := map (fun n => first_chunk (h_app h n)) names).
  assert (HA : forall a, In a apps -> readings a) by (intros a Ha; apply in_map_iff in Ha; destruct Ha as (n & <- & Hn); apply T3; exact Hn).
  destruct (prepare_spec agg m apps T2) as (ix & given & apps' & Ep & HI & Hu & Gm & Fr & Nn); [intros E; apply map_eq_nil in E; contradiction|intros a Ha; apply (proj2 (HA a Ha))|].
  rewrite Ep. cbn [bind fst snd app]. pose proof (prepare_length _ _ _ _ _ _ Ep) as Lp. unfold apps in Lp at 1. rewrite map_length in Lp.
  assert (HG : length given = length ix) by (destruct agg; cbn [given_mains] in Gm; destruct Gm as [Gm _]; rewrite <- Gm, map_length; reflexivity).
  assert (HB : forall a', In a' apps' -> one_column a' /\ index a' = ix).
  { intros a' Ha'. destruct (F2_In_r _ _ _ _ Fr Ha') as (a & Ha & Ra). split; [apply (restricted_one a ix a'); [apply HA; exact Ha|exact Ra]|apply Ra]. }
  unfold call_predict. cbn [mapM]. unfold predict_named at 1. rewrite (truth_of_columns names apps' ND Lp) by (intros a Ha; apply HB; exact Ha). cbn [bind snd].
  set (d := combine names (map column apps')). assert (Kd : map fst d = names) by (apply map_fst_combine; rewrite map_length; exact Lp).
  assert (Ix : gt_index d = ix).
  { unfold gt_index. apply union_same; [exact HI| |].
    - intros E. apply map_eq_nil in E. rewrite E in Kd. cbn in Kd. congruence.
    - intros i Hi. apply in_map_iff in Hi. destruct Hi as ([n s] & <- & Hs). cbn [snd]. unfold d in Hs. apply in_combine_map in Hs. destruct Hs as (a & Ha & ->). rewrite column_index. apply HB. apply (in_combine_r names apps' n a Ha). }
  destruct (HX given) as ((n0 & vs0 & X1 & X2) & X3). revert X1 X3. generalize (g given). intros cols X1 X3.
  assert (G : mapM (fun c => match lookup (fst c) (gt_table d) with None => Err KeyError | Some g0 => do s <- series_with (firstn (length g0) (snd c)) (gt_index d); Ok (fst c, s) end) cols = Err KeyError).
  { rewrite Ix. induction cols as [|[n vs] cols IH]; [destruct X1|]. cbn [mapM fst snd]. destruct (lookup n (gt_table d)) as [g0|] eqn:E; [|reflexivity].
    assert (L0 : length g0 = length ix). { apply lookup_some in E. unfold gt_table in E. apply in_map_iff in E. destruct E as (e & [= _ <-] & _). rewrite map_length, Ix. reflexivity. }
    rewrite L0. specialize (X3 n vs (or_introl eq_refl)) as X4. rewrite HG in X4. rewrite (series_ok vs ix X4). cbn [bind].
    rewrite IH; [reflexivity| |intros n' vs' H; apply (X3 n' vs'); right; exact H]. destruct X1 as [X1|X1]; [|exact X1]. injection X1 as <- <-. exfalso. apply X2.
    assert (In n (map fst (gt_table d))) by (apply lookup_in; congruence). unfold gt_table in H. rewrite map_map in H. rewrite <- Kd. exact H. }
  rewrite G. reflexivity.
Qed.

Lemma test_house_none {K} drop agg names metrics (h : house K) (hs : list (house K)) m apps m' apps' :
  next (h_mains h) = Ok m -> mapM (fun n => next (h_app h n)) names = Ok apps -> prepare drop agg m apps = Ok (m', apps') ->
  test_jointly loss drop agg names metrics [] (h :: hs) = Err AttributeError.
Proof. intros H1 H2 H3. unfold test_jointly. cbn [foldM]. unfold test_house at 1. rewrite H1. cbn [bind]. rewrite H2. cbn [bind]. rewrite H3. reflexivity. Qed.
End Exp.

(** ** Training *)
Lemma first_column_spec f : f <> [] -> (forall r, In r f -> snd r <> []) -> first_column f = Ok (column_one f).
Proof.
  intros Hf H. unfold first_column. assert (G : mapM (fun r : Z * cells => match snd r with [] => Err IndexError | v :: _ => Ok (fst r, [v]) end) f = Ok (column_one f)).
  { clear Hf. induction f as [|[t c] f IH]; [reflexivity|]. cbn [mapM fst snd]. destruct c as [|v c]; [exfalso; apply (H (t, [])); [left; reflexivity|reflexivity]|]. cbn [bind]. rewrite IH by (intros r Hr; apply H; right; exact Hr). reflexivity. }
  destruct f; [contradiction|exact G].
Qed.
Lemma column_one_index f : index (column_one f) = index f.
Proof. unfold index, column_one. rewrite map_map. reflexivity. Qed.
Lemma column_one_one f : (forall r, In r f -> snd r <> []) -> one_column (column_one f).
Proof. intros H r Hr. apply in_map_iff in Hr. destruct Hr as (r0 & <- & H0). cbn [snd]. specialize (H _ H0). destruct (snd r0); [contradiction|reflexivity]. Qed.

Lemma train_house_spec {K} agg names (h : house K) : names <> [] -> trainable names h ->
  exists ix given apps', train_house true agg names h = Ok (given, apps') /\ rising ix /\
    (forall t, In t ix <-> usable (column_one (first_chunk (h_mains h))) (map (fun n => column_one (first_chunk (h_app h n))) names) t) /\
    given_mains agg (column_one (first_chunk (h_mains h))) (map (fun n => column_one (first_chunk (h_app h n))) names) ix given /\
    Forall2 (fun n a' => restricted (column_one (first_chunk (h_app h n))) ix a') names apps'.
Proof.
  intros Hne ((m & rest & Em & M1 & M2 & M3) & HA). unfold train_house. rewrite Em. cbn [next bind first_chunk hd]. rewrite first_column_spec by assumption. cbn [bind].
  assert (E : mapM (fun n => do a <- next (h_app h n); first_column a) names = Ok (map (fun n => column_one (first_chunk (h_app h n))) names)).
  { clear Hne. induction names as [|n names IH]; [reflexivity|]. cbn [mapM map]. destruct (HA n (or_introl eq_refl)) as (f & r & Ef & F1 & F2 & F3). rewrite Ef. cbn [next bind first_chunk hd]. rewrite first_column_spec by assumption. cbn [bind].
    rewrite IH; [reflexivity|]. intros k Hk. apply HA. right. exact Hk. }
  rewrite E. cbn [bind]. destruct (prepare_spec agg (column_one m) (map (fun n => column_one (first_chunk (h_app h n))) names)) as (ix & given & apps' & Ep & HI & Hu & Gm & Fr & _).
  - rewrite column_one_index. exact M2.
  - intros X. apply map_eq_nil in X. contradiction.
  - intros a Ha. apply in_map_iff in Ha. destruct Ha as (n & <- & Hn). destruct (HA n Hn) as (f & r & Ef & F1 & F2 & F3). rewrite Ef. cbn [first_chunk hd]. apply column_one_one. exact F3.
  - exists ix, given, apps'. split; [exact Ep|]. split; [exact HI|]. split; [exact Hu|]. split; [exact Gm|]. apply F2_map_l in Fr. exact Fr.
Qed.

(** Lists extended in step: column [i] collects the [i]-th frames. *)
Lemma append_each_spec {X} (lists : list (list X)) : forall xs i l x, nth_error lists i = Some l -> nth_error xs i = Some x -> nth_error (append_each lists xs) i = Some (l ++ [x]).
Proof. induction lists as [|l0 lists IH]; intros [|x0 xs] [|i] l x; cbn [nth_error append_each]; try discriminate; [intros [= <-] [= <-]; reflexivity|apply IH]. Qed.
Lemma append_each_length {X} (lists : list (list X)) : forall xs, length (append_each lists xs) = length lists.
Proof. induction lists as [|l lists IH]; intros [|x xs]; cbn; auto. Qed.

Lemma train_spec {K} agg names (hs : list (house K)) : names <> [] -> (forall h, In h hs -> trainable names h) ->
  exists mains subs, train_jointly true agg names hs = Ok (mains, combine names subs) /\ length mains = length hs /\ length subs = length names /\
    (forall i l, nth_error subs i = Some l -> length l = length hs) /\
    forall k h, nth_error hs k = Some h -> exists ix given, nth_error mains k = Some given /\ rising ix /\
      (forall t, In t ix <-> usable (column_one (first_chunk (h_mains h))) (map (fun n => column_one (first_chunk (h_app h n))) names) t) /\
      given_mains agg (column_one (first_chunk (h_mains h))) (map (fun n => column_one (first_chunk (h_app h n))) names) ix given /\
      forall i n l, nth_error names i = Some n -> nth_error subs i = Some l -> exists f, nth_error l k = Some f /\ restricted (column_one (first_chunk (h_app h n))) ix f.
Proof.
  intros Hne HT. unfold train_jointly. set (step := fun st h => do (m, apps) <- train_house true agg names h; Ok (fst st ++ [m], append_each (snd st) apps)).
  set (good := fun (hs : list (house K)) (mains : list frame) (subs : list (list frame)) => length mains = length hs /\ length subs = length names /\
    (forall i l, nth_error subs i = Some l -> length l = length hs) /\
    forall k h, nth_error hs k = Some h -> exists ix given, nth_error mains k = Some given /\ rising ix /\
      (forall t, In t ix <-> usable (column_one (first_chunk (h_mains h))) (map (fun n => column_one (first_chunk (h_app h n))) names) t) /\
      given_mains agg (column_one (first_chunk (h_mains h))) (map (fun n => column_one (first_chunk (h_app h n))) names) ix given /\
      forall i n l, nth_error names i = Some n -> nth_error subs i = Some l -> exists f, nth_error l k = Some f /\ restricted (column_one (first_chunk (h_app h n))) ix f).
  assert (G : forall done mains subs, (forall h, In h hs -> trainable names h) -> good done mains subs -> exists mains' subs', foldM step hs (mains, subs) = Ok (mains', subs') /\ good (done ++ hs) mains' subs').
  { clear HT. induction hs as [|h hs IH]; intros done mains subs HT HG; [exists mains, subs; rewrite app_nil_r; split; [reflexivity|exact HG]|].
    destruct (train_house_spec agg names h Hne (HT h (or_introl eq_refl))) as (ix & given & apps' & E & HI & Hu & Gm & Fr). cbn [foldM]. unfold step at 1. rewrite E. cbn [bind fst snd].
    replace (done ++ h :: hs) with ((done ++ [h]) ++ hs) by (rewrite <- app_assoc; reflexivity). apply IH; [intros k Hk; apply HT; right; exact Hk|]. destruct HG as (G1 & G2 & G3 & G4).
    assert (LA : length apps' = length names) by (clear -Fr; induction Fr; cbn; congruence).
    assert (NX : forall i l, nth_error (append_each subs apps') i = Some l -> exists l0 x, nth_error subs i = Some l0 /\ nth_error apps' i = Some x /\ l = l0 ++ [x]).
    { intros i l Hl. assert (i < length subs)%nat by (rewrite <- (append_each_length subs apps'); apply nth_error_Some; congruence).
      destruct (nth_error subs i) as [l0|] eqn:E0; [|apply nth_error_None in E0; lia]. destruct (nth_error apps' i) as [x|] eqn:E1; [|apply nth_error_None in E1; lia].
      rewrite (append_each_spec subs apps' i l0 x E0 E1) in Hl. injection Hl as <-. exists l0, x. auto. }
    split; [rewrite !app_length; cbn; lia|]. split; [rewrite append_each_length; exact G2|]. split.
    - intros i l Hl. destruct (NX i l Hl) as (l0 & x & E0 & E1 & ->). rewrite !app_length. cbn. rewrite (G3 i l0 E0). lia.
    - intros k h0 Hk. destruct (Nat.lt_ge_cases k (length done)) as [Lk|Lk].
      + rewrite nth_error_app1 in Hk by exact Lk. destruct (G4 k h0 Hk) as (ix0 & given0 & A1 & A2 & A3 & A4 & A5). exists ix0, given0. split; [rewrite nth_error_app1 by lia; exact A1|]. split; [exact A2|]. split; [exact A3|]. split; [exact A4|].
        intros i n l Hn Hl. destruct (NX i l Hl) as (l0 & x & E0 & E1 & ->). destruct (A5 i n l0 Hn E0) as (f & Ef & Rf). exists f. split; [rewrite nth_error_app1; [exact Ef|apply nth_error_Some; congruence]|exact Rf].
      + rewrite nth_error_app2 in Hk by exact Lk. destruct (k - length done)%nat as [|j] eqn:Ej; [|destruct j; discriminate]. cbn in Hk. injection Hk as <-. assert (k = length done) by lia. subst k.
        exists ix, given. split; [rewrite <- G1, nth_error_app2, Nat.sub_diag by lia; reflexivity|]. split; [exact HI|]. split; [exact Hu|]. split; [exact Gm|].
        intros i n l Hn Hl. destruct (NX i l Hl) as (l0 & x & E0 & E1 & ->). exists x. split; [rewrite <- (G3 i l0 E0), nth_error_app2, Nat.sub_diag by lia; reflexivity|].
        clear -Fr Hn E1. revert i Hn E1. induction Fr as [|a b la lb R1 R2 IH]; intros [|i] Hn E1; try discriminate; [cbn in *; injection Hn as <-; injection E1 as <-; exact R1|apply (IH i Hn E1)]. }
  destruct (G [] [] (map (fun _ => []) names) HT) as (mains & subs & E & HG).
  - split; [reflexivity|]. split; [apply map_length|]. split; [|intros [|k] h H; discriminate]. intros i l Hl. rewrite nth_error_map in Hl. destruct (nth_error names i); [injection Hl as <-; reflexivity|discriminate].
  - fold step. rewrite E. cbn [bind app] in *. exists mains, subs. split; [reflexivity|exact HG].
Qed.
