From Coq Require Import Lia Permutation Sorted.
From Verif Require Import Base DataportModel DataportSpec DataportProofs.
Import List. Open Scope Z_scope.

(** ** Dictionaries *)
Section Dict.
Context {A V : Type} (eqb : A -> A -> bool).
Hypothesis eqb_eq : forall a b, eqb a b = true <-> a = b.
Lemma dget_dset d (k k' : A) (v : V) : dget eqb (dset eqb d k v) k' = if eqb k k' then Some v else dget eqb d k'.
Proof.
  induction d as [|[a w] d IH]; cbn.
  - reflexivity.
  - destruct (eqb a k) eqn:E; cbn.
    + apply eqb_eq in E. subst a. destruct (eqb k k') eqn:E'; reflexivity.
    + rewrite IH. destruct (eqb a k') eqn:E'; [|reflexivity]. destruct (eqb k k') eqn:E2; [|reflexivity].
      apply eqb_eq in E', E2. subst. rewrite (proj2 (eqb_eq k' k') eq_refl) in E. discriminate.
Qed.
Lemma dset_new d (k : A) (v : V) : ~ In k (map fst d) -> dset eqb d k v = d ++ [(k, v)].
Proof.
  induction d as [|[a w] d IH]; cbn; intros H; [reflexivity|]. destruct (eqb a k) eqn:E; [apply eqb_eq in E; tauto|]. rewrite IH by tauto. reflexivity.
Qed.
Lemma dset_last d (k : A) (v w : V) : ~ In k (map fst d) -> dset eqb (d ++ [(k, w)]) k v = d ++ [(k, v)].
Proof.
  induction d as [|[a u] d IH]; cbn; intros H; [now rewrite (proj2 (eqb_eq k k) eq_refl)|]. destruct (eqb a k) eqn:E; [apply eqb_eq in E; tauto|]. rewrite IH by tauto. reflexivity.
Qed.
Lemma dindex_last d (k : A) (v : V) : ~ In k (map fst d) -> dindex eqb (d ++ [(k, v)]) k = length d.
Proof.
  induction d as [|[a u] d IH]; cbn; intros H; [now rewrite (proj2 (eqb_eq k k) eq_refl)|]. destruct (eqb a k) eqn:E; [apply eqb_eq in E; tauto|]. rewrite IH by tauto. reflexivity.
Qed.
End Dict.
Lemma key_eqb_eq a b : key_eqb a b = true <-> a = b.
Proof. unfold key_eqb. rewrite andb_true_iff, !Nat.eqb_eq. destruct a, b; cbn. split; [intros [-> ->]; reflexivity|intros [= -> ->]; auto]. Qed.
Lemma table_put t k rs k' : table (put t k rs) k' = table t k' ++ (if key_eqb k k' then rs else []).
Proof.
  unfold table, put. rewrite (dget_dset _ key_eqb_eq). destruct (key_eqb k k') eqn:E; [|now rewrite app_nil_r]. apply key_eqb_eq in E. subst.
  destruct (dget key_eqb t k'); reflexivity.
Qed.

(** ** Writing one frame *)
Definition plain (cs : list col) : Prop := Forall (fun c => c = Use \/ exists k, c = App k) cs.
Definition flag (c : col) : bool := match c with Use => true | _ => false end.
Section T.
Variable typ : nat -> nat.
Definition typed (apps : list appliance) : Prop := forall a k, In a apps -> p_name a = App k -> p_type a = typ k.

Lemma numbered_snoc apps a : numbered apps -> p_instance a = S (count_type apps (p_type a)) -> numbered (apps ++ [a]).
Proof.
  intros H E pre x post K. destruct post as [|y post _] using rev_ind.
  - apply app_inj_tail in K. destruct K as [<- <-]. exact E.
  - rewrite app_comm_cons, app_assoc in K. apply app_inj_tail in K. destruct K as [K _]. eapply H. exact K.
Qed.

Lemma write_columns_ok b rs : forall cs t m md, plain cs ->
  exists t' md', write_columns typ t b m cs rs md = Ok (t', md') /\ m_instance md' = m_instance md /\ m_pv md' = m_pv md /\
    (exists l, m_apps md' = m_apps md ++ l /\ map (fun a => (p_name a, p_meter a)) l = named m cs) /\
    (typed (m_apps md) -> typed (m_apps md')) /\ (numbered (m_apps md) -> numbered (m_apps md')) /\
    (forall j, dget Nat.eqb (m_meters md') j = if (m <=? j)%nat then match nth_error cs (j - m) with Some c => Some (flag c) | None => dget Nat.eqb (m_meters md) j end else dget Nat.eqb (m_meters md) j) /\
    (forall k, table t' k = table t k ++ (if ((fst k =? b) && (m <=? snd k))%nat then match nth_error cs (snd k - m) with Some c => map (fun x => (fst x, snd x c)) rs | None => [] end else [])).
Proof.
  induction cs as [|c cs IH]; intros t m md HP.
  - exists t, md. cbn [write_columns]. split; [reflexivity|]. split; [reflexivity|]. split; [reflexivity|]. split; [exists []; rewrite app_nil_r; auto|].
    split; [auto|]. split; [auto|]. split.
    + intros j. destruct (m <=? j)%nat; [|reflexivity]. destruct (j - m)%nat; reflexivity.
    + intros k. destruct (_ && _); [|now rewrite app_nil_r]. destruct (snd k - m)%nat; cbn; now rewrite app_nil_r.
  - apply Forall_cons_iff in HP. destruct HP as [HC HP].
    assert (Q : forall md1, (match c with
                | Use => Ok (mkMeta (m_instance md) (dset Nat.eqb (m_meters md) m true) (m_apps md) (m_pv md))
                | App k => Ok (mkMeta (m_instance md) (dset Nat.eqb (m_meters md) m false)
                                      (m_apps md ++ [mkApp c m (typ k) (S (count_type (m_apps md) (typ k)))]) (m_pv md))
                | _ => Err KeyError
                end) = Ok md1 ->
      m_instance md1 = m_instance md -> m_pv md1 = m_pv md ->
      (exists l, m_apps md1 = m_apps md ++ l /\ map (fun a => (p_name a, p_meter a)) l = match c with App _ => [(c, m)] | _ => [] end) ->
      (typed (m_apps md) -> typed (m_apps md1)) -> (numbered (m_apps md) -> numbered (m_apps md1)) ->
      m_meters md1 = dset Nat.eqb (m_meters md) m (flag c) ->
      exists t' md', write_columns typ t b m (c :: cs) rs md = Ok (t', md') /\ m_instance md' = m_instance md /\ m_pv md' = m_pv md /\
    (exists l, m_apps md' = m_apps md ++ l /\ map (fun a => (p_name a, p_meter a)) l = named m (c :: cs)) /\
    (typed (m_apps md) -> typed (m_apps md')) /\ (numbered (m_apps md) -> numbered (m_apps md')) /\
    (forall j, dget Nat.eqb (m_meters md') j = if (m <=? j)%nat then match nth_error (c :: cs) (j - m) with Some c => Some (flag c) | None => dget Nat.eqb (m_meters md) j end else dget Nat.eqb (m_meters md) j) /\
    (forall k, table t' k = table t k ++ (if ((fst k =? b) && (m <=? snd k))%nat then match nth_error (c :: cs) (snd k - m) with Some c => map (fun x => (fst x, snd x c)) rs | None => [] end else []))).
    { intros md1 E I P (l1 & A1 & A2) Ty Nu Me. destruct (IH (put t (b, m) (map (fun x => (fst x, snd x c)) rs)) (S m) md1 HP) as (t' & md' & E' & I' & P' & (l2 & B1 & B2) & Ty' & Nu' & Me' & Ta').
      exists t', md'. cbn [write_columns]. rewrite E. cbn [bind]. split; [exact E'|]. split; [congruence|]. split; [congruence|].
      split. { exists (l1 ++ l2). split; [rewrite B1, A1; now rewrite app_assoc|]. rewrite map_app, A2, B2. cbn [named]. destruct c; reflexivity. }
      split; [auto|]. split; [auto|]. split.
      - intros j. rewrite Me', Me, (dget_dset _ Nat.eqb_eq). destruct (Nat.leb_spec (S m) j), (Nat.leb_spec m j), (Nat.eqb_spec m j); try lia.
        + replace (j - m)%nat with (S (j - S m)) by lia. cbn [nth_error]. reflexivity.
        + subst. rewrite Nat.sub_diag. reflexivity.
        + reflexivity.
      - intros [i j]. rewrite Ta', table_put. cbn [fst snd]. unfold key_eqb; cbn [fst snd]. rewrite <- app_assoc. f_equal.
        destruct (Nat.eqb_spec b i) as [->|N]; [rewrite Nat.eqb_refl|rewrite (proj2 (Nat.eqb_neq i b)) by auto]; cbn [andb]; [|reflexivity].
        destruct (Nat.leb_spec (S m) j), (Nat.leb_spec m j), (Nat.eqb_spec m j); try lia.
        + replace (j - m)%nat with (S (j - S m)) by lia. reflexivity.
        + subst. rewrite Nat.sub_diag. cbn [nth_error]. now rewrite app_nil_r.
        + reflexivity. }
    destruct HC as [->|[k ->]]; (eapply Q; [reflexivity|reflexivity|reflexivity| | | |reflexivity]); cbn [m_apps].
    + exists []. rewrite app_nil_r. auto.
    + auto.
    + auto.
    + eexists [_]. split; reflexivity.
    + intros H a j Ha Hn. apply in_app_or in Ha. destruct Ha as [Ha|[<-|[]]]; [now apply H|]. cbn [p_name p_type] in *. injection Hn as <-. reflexivity.
    + intros H. apply numbered_snoc; [exact H|]. reflexivity.
Qed.

(** ** One building *)
Definition eff (fl : file) (b : Z) : frame := if is_empty (file_frame fl b) then mkFrame [] [] else file_frame fl b.
Lemma extracts_eff fl b f : file_bad fl b = false -> extracts fl b f <-> f = eff fl b.
Proof.
  intros HB. unfold extracts, yields_frame, eff. assert (E : forall pv, extract fl b pv = Ok (file_frame fl b, pv || file_solar fl b)) by (intros; now rewrite extract_eq, HB).
  destruct (is_empty (file_frame fl b)) eqn:EE; split.
  - intros [(pv & H & H')|[-> _]]; [|reflexivity]. rewrite E in H. injection H as <- _. congruence.
  - intros ->. right. split; [reflexivity|]. intros g (pv & H & H'). rewrite E in H. injection H as <- _. congruence.
  - intros [(pv & H & H')|[-> H]]; [rewrite E in H; injection H as <- _; reflexivity|]. elim (H (file_frame fl b)). exists (false || file_solar fl b). auto.
  - intros ->. left. exists (false || file_solar fl b). auto.
Qed.
Lemma step_plain header f rs : plain (columns f) -> plain (columns (step_frame header f rs)).
Proof.
  assert (O : forall rs, plain (out_of header rs)).
  { intros l. apply Forall_forall. intros c H. apply out_in in H. destruct H as [(k & -> & _)|[-> _]]; eauto. }
  intros H. destruct rs as [|x rs]; [exact H|]. unfold step_frame. destruct (is_empty f); [apply O|]. cbn [concat_frames columns]. apply Forall_app. split; [exact H|].
  apply Forall_forall. intros c Hc. apply filter_In in Hc. exact (proj1 (Forall_forall _ _) (O _) c (proj1 Hc)).
Qed.
Lemma file_plain fl b : plain (columns (file_frame fl b)).
Proof.
  unfold file_frame. assert (K : forall l f, plain (columns f) -> plain (columns (fold_left (step_frame (f_header fl)) l f))).
  { induction l as [|rs l IH]; intros f H; cbn; [exact H|]. apply IH. now apply step_plain. }
  specialize (K (map (of_building b) (f_chunks fl)) (mkFrame [] []) (Forall_nil _)). destruct (is_empty _); exact K.
Qed.

Variable fs : nat -> file.
Definition cache_ok (c : list (nat * list Z)) : Prop := forall n bs, dget Nat.eqb c n = Some bs -> bs = buildings_of (fs n).

Lemma skip_empty c n b : cache_ok c -> skip c n b = true -> file_frame (fs n) b = mkFrame [] [] /\ file_bad (fs n) b = false /\ file_solar (fs n) b = false.
Proof.
  intros HC H. unfold skip in H. destruct (dget Nat.eqb c n) as [bs|] eqn:E; [|discriminate]. apply absent_empty. intros K. rewrite (HC _ _ E) in H.
  apply negb_true_iff in H. rewrite <- not_true_iff_false in H. apply H. apply existsb_exists. exists b. split; [exact K|apply Z.eqb_refl].
Qed.

Section B.
Variables (b : Z) (T0 : tables) (M0 : list (Z * meta)).
Hypothesis Hb : ~ In b (map fst M0).
Let i := S (length M0).
Definition BInv (s : conv) (md : meta) (Fs : list frame) (pv : bool) : Prop :=
  cache_ok (c_cache s) /\ m_pv md = pv /\
  (forall k, table (c_tables s) k = table T0 k ++ (if (fst k =? i)%nat then concat (map (fun f => column_rows f (snd k)) Fs) else [])) /\
  ((forallb is_empty Fs = true /\ c_metas s = M0 /\ md = mkMeta None [] [] pv /\ concat (map (fun f => named 1 (columns f)) Fs) = [] /\ (forall m, site_flag Fs m = None)) \/
   (forallb is_empty Fs = false /\ c_metas s = M0 ++ [(b, md)] /\ describes typ i Fs md)).

Lemma site_snoc Fs f m : site_flag (Fs ++ [f]) m = match m with O => site_flag Fs m | S k => match nth_error (columns f) k with Some c => Some (flag c) | None => site_flag Fs m end end.
Proof. unfold site_flag. rewrite fold_left_app. cbn. destruct m; [reflexivity|]. destruct (nth_error (columns f) m) as [[]|]; reflexivity. Qed.

Lemma one_file_ok s md Fs pv n : BInv s md Fs pv ->
  if file_bad (fs n) b then one_file typ fs b (s, md) n = Err KeyError
  else exists s' md', one_file typ fs b (s, md) n = Ok (s', md') /\ BInv s' md' (Fs ++ [eff (fs n) b]) (pv || file_solar (fs n) b).
Proof.
  intros (HC & HP & HT & HM). unfold one_file.
  assert (Empty : forall s', cache_ok (c_cache s') -> c_tables s' = c_tables s -> c_metas s' = c_metas s -> is_empty (file_frame (fs n) b) = true ->
            BInv s' (mkMeta (m_instance md) (m_meters md) (m_apps md) (pv || file_solar (fs n) b)) (Fs ++ [eff (fs n) b]) (pv || file_solar (fs n) b)).
  { intros s' HC' E1 E2 EE. unfold eff. rewrite EE, (empty_no_solar _ _ EE), orb_false_r.
    assert (EM : mkMeta (m_instance md) (m_meters md) (m_apps md) pv = md) by (rewrite <- HP; destruct md; reflexivity). rewrite EM.
    split; [exact HC'|]. split; [exact HP|]. split.
    - intros k. rewrite E1, HT, map_app, concat_app. cbn [map concat column_rows columns]. f_equal. destruct (fst k =? i)%nat; [|reflexivity].
      replace (match snd k with O => [] | S j => match nth_error (@nil col) j with Some c => map (fun x : frow => (fst x, snd x c)) [] | None => [] end end) with (@nil (Z * option Z)) by (destruct (snd k) as [|[|?]]; reflexivity).
      destruct (snd k) as [|[|?]]; cbn; now rewrite !app_nil_r.
    - rewrite forallb_app, E2, map_app, concat_app. cbn [forallb is_empty columns andb map concat named]. rewrite andb_true_r, !app_nil_r.
      destruct HM as [(A & B & C & D & E)|(A & B & C)]; [left|right].
      + split; [exact A|]. split; [exact B|]. split; [exact C|]. split; [exact D|]. intros m. rewrite site_snoc. destruct m as [|[|?]]; cbn; apply E.
      + split; [exact A|]. split; [exact B|]. destruct C as (C1 & C2 & C3 & C4 & C5). split; [exact C1|]. split; [rewrite map_app, concat_app; cbn; now rewrite app_nil_r|].
        split; [exact C3|]. split; [exact C4|]. intros m. rewrite site_snoc, C5. destruct m as [|[|?]]; reflexivity. }
  destruct (skip (c_cache s) n b) eqn:ES.
  - destruct (skip_empty _ _ _ HC ES) as (EF & EB & EP). rewrite EB. exists s, md. split; [reflexivity|].
    assert (EE : is_empty (file_frame (fs n) b) = true) by (now rewrite EF). specialize (Empty s HC eq_refl eq_refl EE). rewrite EP, orb_false_r in *.
    assert (EM : mkMeta (m_instance md) (m_meters md) (m_apps md) pv = md) by (rewrite <- HP; destruct md; reflexivity). rewrite EM in Empty. exact Empty.
  - rewrite extract_eq, HP. destruct (file_bad (fs n) b) eqn:EB; [reflexivity|]. cbn [bind fst snd].
    set (cache := match dget Nat.eqb (c_cache s) n with Some _ => c_cache s | None => dset Nat.eqb (c_cache s) n (buildings_of (fs n)) end).
    assert (HC' : cache_ok cache).
    { unfold cache. destruct (dget Nat.eqb (c_cache s) n) as [bs|] eqn:E; [exact HC|]. intros k bs. rewrite (dget_dset _ Nat.eqb_eq). destruct (Nat.eqb_spec n k) as [<-|N]; [intros [= <-]; reflexivity|apply HC]. }
    destruct (is_empty (file_frame (fs n) b)) eqn:EE.
    + eexists _, _. split; [reflexivity|]. apply Empty; auto.
    + unfold write_meter_data. cbn [c_metas c_tables c_cache m_instance m_meters m_apps m_pv].
      set (pv' := pv || file_solar (fs n) b). set (md1 := mkMeta (m_instance md) (m_meters md) (m_apps md) pv').
      assert (HD : dset Z.eqb (c_metas s) b md1 = M0 ++ [(b, md1)]).
      { destruct HM as [(A & B & C & D & E)|(A & B & C)]; rewrite B; [apply dset_new|apply dset_last]; auto using Z.eqb_eq. }
      rewrite HD. assert (HI : match m_instance md with Some x => x | None => S (dindex Z.eqb (M0 ++ [(b, md1)]) b) end = i).
      { destruct HM as [(A & B & C & D & E)|(A & B & C)]; [rewrite C; cbn [m_instance]; rewrite (dindex_last _ Z.eqb_eq) by exact Hb; reflexivity|]. destruct C as (-> & _). reflexivity. }
      rewrite HI. destruct (write_columns_ok i (rows (file_frame (fs n) b)) (columns (file_frame (fs n) b)) (c_tables s) 1 (mkMeta (Some i) (m_meters md) (m_apps md) pv') (file_plain _ _))
        as (t' & md' & E & I & P & (l & A1 & A2) & Ty & Nu & Me & Ta). cbn [m_instance m_meters m_apps m_pv] in *. rewrite E. cbn [bind fst snd].
      rewrite (dset_last _ Z.eqb_eq) by exact Hb. eexists _, md'. split; [reflexivity|]. unfold eff. rewrite EE.
      assert (Q : typed (m_apps md) /\ numbered (m_apps md) /\ map (fun a => (p_name a, p_meter a)) (m_apps md) = concat (map (fun f => named 1 (columns f)) Fs) /\ (forall m, dget Nat.eqb (m_meters md) m = site_flag Fs m)).
      { destruct HM as [(A & B & C & D & F)|(A & B & C)].
        - rewrite C, D. cbn. split; [intros a k []|]. split; [intros pre a post K; destruct pre; discriminate|]. split; [reflexivity|]. intros m. symmetry. apply F.
        - destruct C as (C1 & C2 & C3 & C4 & C5). auto. }
      destruct Q as (Q1 & Q2 & Q3 & Q4). split; [exact HC'|]. split; [exact P|]. cbn [c_tables c_metas]. split.
      * intros k. rewrite Ta, HT, map_app, concat_app, <- app_assoc. f_equal. cbn [map concat]. rewrite app_nil_r. unfold column_rows at 3. destruct (fst k =? i)%nat; cbn [andb]; [|reflexivity].
        f_equal. destruct (snd k) as [|j]; [reflexivity|]. cbn [Nat.leb]. rewrite Nat.sub_succ, Nat.sub_0_r. reflexivity.
      * right. split; [rewrite forallb_app; cbn; rewrite EE; now rewrite andb_false_r|]. split; [reflexivity|]. split; [exact I|].
        split; [rewrite A1, map_app, A2, Q3, map_app, concat_app; cbn; now rewrite app_nil_r|]. split; [apply Ty, Q1|]. split; [apply Nu, Q2|].
        intros m. rewrite Me, site_snoc, Q4. destruct m as [|j]; [reflexivity|]. cbn [Nat.leb]. rewrite Nat.sub_succ, Nat.sub_0_r. reflexivity.
Qed.
Lemma files_ok names : forall s md Fs pv, BInv s md Fs pv ->
  if existsb (fun n => file_bad (fs n) b) names then foldM (one_file typ fs b) names (s, md) = Err KeyError
  else exists s' md', foldM (one_file typ fs b) names (s, md) = Ok (s', md') /\ BInv s' md' (Fs ++ map (fun n => eff (fs n) b) names) (pv || existsb (fun n => file_solar (fs n) b) names).
Proof.
  induction names as [|n l IH]; intros s md Fs pv H; cbn [foldM existsb map].
  - exists s, md. rewrite app_nil_r, orb_false_r. auto.
  - pose proof (one_file_ok s md Fs pv n H) as K. destruct (file_bad (fs n) b); cbn [orb]; [rewrite K; reflexivity|]. destruct K as (s' & md' & E & K). rewrite E. cbn [bind].
    specialize (IH s' md' _ _ K). rewrite <- app_assoc, <- orb_assoc in IH. exact IH.
Qed.
End B.

Lemma binv_start b s : cache_ok (c_cache s) -> BInv b (c_tables s) (c_metas s) s new_meta [] false.
Proof.
  intros H. split; [exact H|]. split; [reflexivity|]. split; [intros k; destruct (_ =? _)%nat; now rewrite app_nil_r|]. left. cbn. auto.
Qed.

(** ** All buildings *)
Section All.
Variable ns : list nat.
Definition frames (b : Z) : list frame := map (fun n => eff (fs n) b) ns.
Definition bad (b : Z) : bool := existsb (fun n => file_bad (fs n) b) ns.
Definition pv_of (b : Z) : bool := existsb (fun n => file_solar (fs n) b) ns.
Definition data (b : Z) : bool := negb (forallb is_empty (frames b)).
Definition CInv (s : conv) (done : list Z) : Prop :=
  cache_ok (c_cache s) /\ map fst (c_metas s) = filter data done /\
  (forall j b md, nth_error (c_metas s) j = Some (b, md) -> describes typ (S j) (frames b) md /\ m_pv md = pv_of b /\
      forall m, table (c_tables s) (S j, m) = concat (map (fun f => column_rows f m) (frames b))) /\
  (forall i m, (i = 0 \/ length (c_metas s) < i)%nat -> table (c_tables s) (i, m) = []).
Lemma no_data_rows b m : data b = false -> concat (map (fun f => column_rows f m) (frames b)) = [].
Proof.
  unfold data. rewrite negb_false_iff. induction (frames b) as [|f l IH]; cbn; [reflexivity|]. intros H. apply andb_true_iff in H. destruct H as [H1 H2].
  rewrite (IH H2), app_nil_r. unfold column_rows, is_empty in *. destruct m as [|k]; [reflexivity|]. destruct (columns f); [destruct k; reflexivity|]. destruct (rows f); [|discriminate].
  destruct (nth_error _ _); reflexivity.
Qed.
Lemma one_building_ok s done b : CInv s done -> ~ In b done ->
  if bad b then one_building typ fs ns s b = Err KeyError else exists s', one_building typ fs ns s b = Ok s' /\ CInv s' (done ++ [b]).
Proof.
  intros (HC & HK & HM & HT) Hb. unfold one_building, bad.
  assert (Hb' : ~ In b (map fst (c_metas s))) by (rewrite HK; intros K; apply filter_In in K; tauto).
  pose proof (files_ok b (c_tables s) (c_metas s) Hb' ns s new_meta [] false (binv_start b s HC)) as K.
  destruct (existsb (fun n => file_bad (fs n) b) ns); [rewrite K; reflexivity|]. destruct K as (s' & md' & E & (KC & KP & KT & KM)). rewrite E. cbn [bind fst]. exists s'. split; [reflexivity|].
  cbn [List.app orb] in *. fold (frames b) in *. fold (pv_of b) in *. split; [exact KC|].
  assert (OLD : forall j x, nth_error (c_metas s) j = Some x -> (S j =? S (length (c_metas s)))%nat = false).
  { intros j x H. apply Nat.eqb_neq. assert (j < length (c_metas s))%nat by (apply nth_error_Some; congruence). lia. }
  destruct KM as [(A & B & C & D & F)|(A & B & C)].
  - assert (N : data b = false) by (unfold data; now rewrite A). split; [rewrite B, filter_app; cbn; now rewrite N, app_nil_r|]. rewrite B. split.
    + intros j b1 md1 H. destruct (HM j b1 md1 H) as (X & Y & W). split; [exact X|]. split; [exact Y|]. intros m. rewrite KT. cbn [fst snd]. rewrite (OLD _ _ H), app_nil_r. apply W.
    + intros i m H. rewrite KT. cbn [fst snd]. rewrite HT by exact H. destruct (_ =? _)%nat; [now apply no_data_rows|reflexivity].
  - assert (N : data b = true) by (unfold data; now rewrite A). split; [rewrite B, map_app, filter_app, HK; cbn; now rewrite N|]. rewrite B. split.
    + intros j b1 md1 H. destruct (Nat.lt_ge_cases j (length (c_metas s))) as [L|L].
      * rewrite nth_error_app1 in H by exact L. destruct (HM j b1 md1 H) as (X & Y & W). split; [exact X|]. split; [exact Y|]. intros m. rewrite KT. cbn [fst snd]. rewrite (OLD _ _ H), app_nil_r. apply W.
      * rewrite nth_error_app2 in H by exact L. destruct (j - length (c_metas s))%nat as [|q] eqn:Eq; [|destruct q; discriminate]. injection H as <- <-. assert (j = length (c_metas s)) by lia. subst j.
        split; [exact C|]. split; [exact KP|]. intros m. rewrite KT. cbn [fst snd]. rewrite Nat.eqb_refl, HT by lia. reflexivity.
    + rewrite app_length. cbn [length]. intros i m H. rewrite KT. cbn [fst snd]. rewrite (proj2 (Nat.eqb_neq _ _)) by lia. rewrite app_nil_r. apply HT. lia.
Qed.
Lemma buildings_ok ids : forall s done, CInv s done -> NoDup (done ++ ids) ->
  if existsb bad ids then foldM (one_building typ fs ns) ids s = Err KeyError else exists s', foldM (one_building typ fs ns) ids s = Ok s' /\ CInv s' (done ++ ids).
Proof.
  induction ids as [|b l IH]; intros s done H ND; cbn [foldM existsb].
  - exists s. rewrite app_nil_r. auto.
  - assert (Hb : ~ In b done) by (apply NoDup_remove_2 in ND; intros K; apply ND; apply in_or_app; now left).
    pose proof (one_building_ok s done b H Hb) as K. destruct (bad b); cbn [orb]; [rewrite K; reflexivity|]. destruct K as (s' & E & K). rewrite E. cbn [bind].
    specialize (IH s' (done ++ [b]) K). rewrite <- app_assoc in IH. apply IH. exact ND.
Qed.
End All.
End T.
