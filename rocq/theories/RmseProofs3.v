From Coq Require Import String Ascii QArith Reals Qreals Permutation Lia.
From Verif Require Import Base LabelModel LabelProofs RmseModel RmseSpec RmseProofs RmseProofs2.
Import List. Open Scope list_scope. Open Scope nat_scope.

(** *** Tables of labelled meters *)
Lemma labelled_names (gts : list (column * list (option Q))) :
  Forall (fun c => exists m s, fst c = Met m /\ meter_label true (e_meta m) = Ok s /\ ~ mentions "(" s) gts ->
  exists ms, map (fun x : emeter * string => Met (fst x)) ms = map fst gts /\ labels true gts = (true, map (fun x : emeter * string => Name (snd x)) ms) /\
    Forall (fun x : emeter * string => meter_label true (e_meta (fst x)) = Ok (snd x) /\ has_char "(" (snd x) = false) ms.
Proof.
  induction 1 as [|[c g] gts (m & s & E & Lb & P) _ IH]; [exists []; repeat split; constructor|]. cbn [fst] in E. subst c.
  destruct IH as (ms & A & B & C). exists ((m, s) :: ms). cbn [map fst snd labels label_of]. rewrite Lb, B, A. cbn [fst snd]. split; [reflexivity|]. split; [reflexivity|].
  constructor; [|exact C]. cbn [fst snd]. split; [exact Lb|]. now apply mentions_iff.
Qed.
Lemma zipped (gts : list (column * list (option Q))) (ms : list (emeter * string)) (es : list (option R)) : map (fun x : emeter * string => Met (fst x)) ms = map fst gts -> length es = length ms ->
  entries gts (map (fun x : emeter * string => Name (snd x)) ms) es = map (fin (fun _ => false)) (combine ms es).
Proof.
  unfold entries. intros <-. revert es. induction ms as [|[m s] ms IH]; intros [|e es] L; try discriminate; [reflexivity|]. cbn [map combine fst snd fin].
  f_equal. apply IH. cbn in L. lia.
Qed.
Lemma nth_combine {A B} (l : list A) (r : list B) i : nth_error (combine l r) i = match nth_error l i, nth_error r i with Some a, Some b => Some (a, b) | _, _ => None end.
Proof.
  revert r i. induction l as [|a l IH]; intros r i; [cbn; destruct i; reflexivity|]. destruct r as [|b r]; [destruct i as [|i]; [reflexivity|]; cbn [combine nth_error]; destruct (nth_error l i); reflexivity|].
  destruct i as [|i]; [reflexivity|]. cbn [combine nth_error]. apply IH.
Qed.
Lemma Forall2_nth {A B} (P : A -> B -> Prop) l r i a : Forall2 P l r -> nth_error l i = Some a -> exists b, nth_error r i = Some b /\ P a b.
Proof.
  intros H. revert i. induction H as [|x y l r Pxy H IH]; intros [|i] E; try discriminate; cbn [nth_error] in *; [injection E as ->; eauto|eauto].
Qed.

Theorem labelled_run gt pred : table pred -> labelled gt -> length (cols pred) = length (cols gt) -> NoDup (index pred) -> index pred <> [] ->
  exists out, compute_rmse gt pred true = Ok out /\ length out = length (cols gt) /\ NoDup (map fst out) /\
    forall i m g c p s, nth_error (cols gt) i = Some (Met m, g) -> nth_error (cols pred) i = Some (c, p) -> meter_label true (e_meta m) = Ok s ->
      exists k e, nth_error out i = Some (k, e) /\ is_rms (both (index gt) g (combine (index pred) p)) e /\
        ((~ shared gt i s /\ k = Name s) \/ (shared gt i s /\ k = Name (suffix s m))).
Proof.
  intros T [F D] L N NE. destruct (labelled_names _ F) as (ms & A & B & C).
  destruct (loop_run (index gt) (index pred) NE N (cols gt) true (cols pred) L T) as (es & E & H). rewrite B in E. cbn [fst snd] in E.
  pose proof (errors_length _ _ _ _ _ L H) as Le.
  assert (Lm : length ms = length (cols gt)) by (apply (f_equal (@length _)) in A; now rewrite !map_length in A).
  rewrite (zipped _ ms es A ltac:(lia)) in E. set (l := combine ms es) in *.
  assert (Lf : map (fun x : emeter * string * option R => snd (fst x)) l = map snd ms).
  { unfold l. clear -Le Lm. assert (X : length es = length ms) by lia. clear Le Lm. revert es X. induction ms as [|x ms IH]; intros [|e es] X; try discriminate; [reflexivity|]. cbn [combine map fst]. f_equal. apply IH. cbn in X. lia. }
  assert (Ng : forall i m s, nth_error ms i = Some (m, s) -> exists g, nth_error (cols gt) i = Some (Met m, g)).
  { intros i m s K. pose proof (f_equal (fun l => nth_error l i) A) as X. cbn beta in X. rewrite !nth_error_map, K in X. cbn [option_map fst] in X.
    destruct (nth_error (cols gt) i) as [[c g]|]; [|discriminate]. injection X as <-. now exists g. }
  assert (Gn : forall i m g, nth_error (cols gt) i = Some (Met m, g) -> exists s, nth_error ms i = Some (m, s) /\ meter_label true (e_meta m) = Ok s).
  { intros i m g K. pose proof (f_equal (fun l => nth_error l i) A) as X. cbn beta in X. rewrite !nth_error_map, K in X. cbn [option_map fst] in X.
    destruct (nth_error ms i) as [[m' s]|] eqn:Q; [|discriminate]. injection X as ->. exists s. split; [reflexivity|].
    rewrite Forall_forall in C. exact (proj1 (C _ (nth_error_In _ _ Q))). }
  assert (Fl : Forall (fun x : emeter * string * option R => has_char "(" (snd (fst x)) = false) l).
  { apply Forall_forall. intros [x e] I. apply in_combine_l in I. rewrite Forall_forall in C. exact (proj2 (C _ I)). }
  assert (ND : NoDup (map (key_of (twice l)) l)).
  { apply keys_differ; [exact Fl|]. intros i j [[m s] e] [[n t] f] Dij Hi Hj. cbn [fst snd]. intros <-. unfold l in Hi, Hj. rewrite nth_combine in Hi, Hj.
    destruct (nth_error ms i) as [x|] eqn:Mi; [|discriminate]. destruct (nth_error es i); [|discriminate]. injection Hi as -> ->.
    destruct (nth_error ms j) as [y|] eqn:Mj; [|discriminate]. destruct (nth_error es j); [|discriminate]. injection Hj as -> ->.
    destruct (Ng _ _ _ Mi) as (g & Gi). destruct (Ng _ _ _ Mj) as (h & Gj). rewrite Forall_forall in C.
    exact (D i j m n g h s Dij Gi Gj (proj1 (C _ (nth_error_In _ _ Mi))) (proj1 (C _ (nth_error_In _ _ Mj)))). }
  exists (map (fun x => (key_of (twice l) x, snd x)) l).
  assert (EO : compute_rmse gt pred true = Ok (map (fun x => (key_of (twice l) x, snd x)) l)).
  { unfold compute_rmse. rewrite E. cbn [bind fst snd]. rewrite (differentiated l Fl). cbn [bind]. rewrite dict_all; cbn [map List.app].
    - f_equal. rewrite map_map. apply map_ext. intros [[m s] e]. reflexivity.
    - rewrite map_map. replace (map (fun x => identity (snd (fst (fin (twice l) x)))) l) with (map identity (map (key_of (twice l)) l)) by (rewrite map_map; reflexivity).
      assert (X : forall ks, Forall (fun k => exists s, k = Name s) ks -> NoDup ks -> NoDup (map identity ks)).
      { clear. induction ks as [|k ks IH]; intros Fk Nk; [constructor|]. apply Forall_cons_iff in Fk. destruct Fk as [[s ->] Fk]. inversion_clear Nk as [|? ? N1 N2].
        cbn [map identity]. constructor; [|now apply IH]. intros K. apply in_map_iff in K. destruct K as (k & K & I). rewrite Forall_forall in Fk. destruct (Fk k I) as [t ->].
        cbn [identity] in K. injection K as ->. easy. }
      apply X; [|exact ND]. apply Forall_forall. intros k K. apply in_map_iff in K. destruct K as ([[m s] e] & <- & _). eexists. reflexivity. }
  split; [exact EO|]. split; [rewrite map_length; unfold l; rewrite combine_length; lia|]. split; [rewrite map_map; exact ND|].
  intros i m g c p s Gi Pi Lb. destruct (Gn _ _ _ Gi) as (s' & Mi & Lb'). assert (s' = s) by congruence. subst s'.
  assert (Hc : nth_error (combine (cols gt) (cols pred)) i = Some ((Met m, g), (c, p))) by (rewrite nth_combine, Gi, Pi; reflexivity).
  destruct (Forall2_nth _ _ _ _ _ H Hc) as (e & Ei & Re). cbn [fst snd] in Re. exists (key_of (twice l) (m, s, e)), e.
  split; [rewrite nth_error_map; unfold l at 2; rewrite nth_combine, Mi, Ei; reflexivity|]. split; [exact Re|].
  unfold key_of, fin. cbn [fst snd]. assert (Sh : twice l s = true <-> shared gt i s).
  { unfold twice. rewrite Nat.leb_le, Lf. split.
    - intros K. destruct (two_places (map snd ms) s i) as (j & Dj & Kj); [rewrite nth_error_map, Mi; reflexivity|exact K|]. rewrite nth_error_map in Kj.
      destruct (nth_error ms j) as [[n t]|] eqn:Mj; [|discriminate]. injection Kj as ->. destruct (Ng _ _ _ Mj) as (h & Gj). exists j, n, h. split; [exact Dj|]. split; [exact Gj|].
      rewrite Forall_forall in C. exact (proj1 (C _ (nth_error_In _ _ Mj))).
    - intros (j & n & h & Dj & Gj & Ln). destruct (Gn _ _ _ Gj) as (t & Mj & Lt). assert (t = s) by congruence. subst t.
      apply (count_two _ s i j); [congruence|rewrite nth_error_map, Mi; reflexivity|rewrite nth_error_map, Mj; reflexivity]. }
  destruct (twice l s).
  - right. split; [now apply Sh|reflexivity].
  - left. split; [intros K; apply Sh in K; discriminate|reflexivity].
Qed.

(** The number in parentheses is not one. *)
Lemma suffix_not_numbers s m b i : suffix s m <> (s ++ " (" ++ str_int b ++ ", " ++ str_int i ++ ")")%string.
Proof.
  unfold suffix. intros E. apply sapp_inj in E. apply (sapp_inj " (") in E. unfold bound in E. cbn [String.append] in E.
  pose proof (str_int_num b) as K. destruct (str_int b) as [|a r] eqn:Eb; [now apply str_int_ne in Eb|]. cbn [String.append] in E. injection E as <- _.
  discriminate.
Qed.

(** *** Predictions with other rows or columns *)
Lemma find_perm t (a b : list (Z * option Q)) : NoDup (map fst a) -> Permutation a b -> find (fun r => Z.eqb (fst r) t) a = find (fun r => Z.eqb (fst r) t) b.
Proof.
  intros N P. induction P as [|x a b P IH|x y a|a b c P1 IH1 P2 IH2]; cbn [find] in *; [reflexivity| | |].
  - cbn [map] in N. inversion_clear N. now rewrite IH.
  - cbn [map] in N. inversion_clear N as [|? ? N1 _]. destruct (Z.eqb_spec (fst y) t), (Z.eqb_spec (fst x) t); try reflexivity. exfalso. apply N1. left. congruence.
  - rewrite IH1 by exact N. apply IH2. eapply Permutation_NoDup; [apply Permutation_map; exact P1|exact N].
Qed.
Lemma both_perm ix a b : NoDup (map fst a) -> Permutation a b -> forall g, both ix g a = both ix g b.
Proof.
  intros N P. induction ix as [|t ix IH]; intros [|x g]; cbn [both]; try reflexivity. now rewrite IH, (find_perm t a b N P).
Qed.
Lemma fst_combine {A B} (l : list A) (r : list B) : length r = length l -> map fst (combine l r) = l.
Proof. revert r. induction l as [|a l IH]; intros [|b r] L; try discriminate; [reflexivity|]. cbn. f_equal. apply IH. cbn in L. lia. Qed.
Lemma error_perm ix g ix1 p1 ix2 p2 : NoDup ix1 -> length p1 = length ix1 -> length p2 = length ix2 -> Permutation (combine ix1 p1) (combine ix2 p2) ->
  column_error ix g ix1 p1 = column_error ix g ix2 p2.
Proof.
  intros N L1 L2 P. assert (N2 : NoDup ix2).
  { rewrite <- (fst_combine ix2 p2 L2). eapply Permutation_NoDup; [apply Permutation_map; exact P|]. now rewrite fst_combine. }
  destruct (reindexed ix g ix1 p1 N L1) as (q1 & E1 & D1). destruct (reindexed ix g ix2 p2 N2 L2) as (q2 & E2 & D2).
  unfold column_error. rewrite E1, E2. cbn [bind]. rewrite D1, D2. rewrite (both_perm ix (combine ix1 p1) (combine ix2 p2)); [reflexivity| |exact P]. now rewrite fst_combine.
Qed.
Lemma loop_perm ix ix1 ix2 : NoDup ix1 -> forall gts pretty p1 p2, length p1 = length p2 ->
  Forall (fun c => length (snd c) = length ix1) p1 -> Forall (fun c => length (snd c) = length ix2) p2 -> (ix1 = [] <-> ix2 = []) ->
  (forall i c d a b, nth_error p1 i = Some (c, a) -> nth_error p2 i = Some (d, b) -> Permutation (combine ix1 a) (combine ix2 b)) ->
  loop ix ix1 pretty gts p1 = loop ix ix2 pretty gts p2.
Proof.
  intros N. induction gts as [|[app g] gts IH]; intros pretty p1 p2 L F1 F2 EM H; cbn [loop]; [reflexivity|]. set (x := if pretty then _ else _). destruct x as [q l].
  destruct p1 as [|[c a] p1], p2 as [|[d b] p2]; try discriminate; [reflexivity|]. apply Forall_cons_iff in F1, F2. destruct F1 as [A1 F1], F2 as [A2 F2]. cbn [snd] in A1, A2.
  assert (R : loop ix ix1 q gts p1 = loop ix ix2 q gts p2) by (apply IH; auto; intros i; exact (H (S i))).
  rewrite R. pose proof (H 0 c d a b eq_refl eq_refl) as P. rewrite (error_perm ix g ix1 a ix2 b N A1 A2 P).
  destruct ix1, ix2; try reflexivity; exfalso; [now discriminate (proj1 EM eq_refl)|now discriminate (proj2 EM eq_refl)].
Qed.
Theorem rows_permuted gt p1 p2 pretty : table p1 -> table p2 -> NoDup (index p1) -> Permutation (index p1) (index p2) -> length (cols p1) = length (cols p2) ->
  (forall i c d a b, nth_error (cols p1) i = Some (c, a) -> nth_error (cols p2) i = Some (d, b) -> Permutation (combine (index p1) a) (combine (index p2) b)) ->
  compute_rmse gt p1 pretty = compute_rmse gt p2 pretty.
Proof.
  intros T1 T2 N P L H. unfold compute_rmse. rewrite (loop_perm (index gt) (index p1) (index p2) N (cols gt) pretty (cols p1) (cols p2) L T1 T2); [reflexivity| |exact H].
  split; intros E; rewrite E in P; [now apply Permutation_nil|apply Permutation_sym in P; now apply Permutation_nil].
Qed.
Theorem fewer_columns gt pred pretty : table pred -> NoDup (index pred) -> length (cols pred) < length (cols gt) -> compute_rmse gt pred pretty = Err IndexError.
Proof.
  unfold table. intros T N L. unfold compute_rmse. assert (E : loop (index gt) (index pred) pretty (cols gt) (cols pred) = Err IndexError); [|now rewrite E].
  revert L T. generalize (cols pred) as ps. revert pretty. induction (cols gt) as [|[app g] gts IH]; intros pretty ps L T; [cbn in L; lia|]. cbn [loop].
  set (x := if pretty then _ else _). destruct x as [q l]. destruct ps as [|[c p] ps]; [reflexivity|]. apply Forall_cons_iff in T. destruct T as [A T]. cbn [snd] in A.
  assert (R : loop (index gt) (index pred) q gts ps = Err IndexError) by (apply IH; [cbn in L; lia|exact T]). rewrite R.
  destruct (error_ok (index gt) g (index pred) p N A) as (e & E & _). rewrite E. destruct (index pred); reflexivity.
Qed.
Theorem no_predictions gt pred pretty : index pred = [] -> length (cols gt) <= length (cols pred) -> compute_rmse gt pred pretty = Ok [].
Proof.
  intros E L. unfold compute_rmse. rewrite E. assert (X : exists b, loop (index gt) [] pretty (cols gt) (cols pred) = Ok (b, [])).
  { revert L. generalize (cols pred) as ps. revert pretty. induction (cols gt) as [|[app g] gts IH]; intros pretty ps L; [now exists pretty|]. cbn [loop].
    set (x := if pretty then _ else _). destruct x as [q l]. destruct ps as [|[c p] ps]; [cbn in L; lia|]. apply IH. cbn in L. lia. }
  destruct X as [b ->]. cbn [bind fst snd]. destruct b; reflexivity.
Qed.

Lemma repeats_found l : ~ NoDup l -> has_repeats l = true.
Proof.
  induction l as [|t r IH]; intros N; [exfalso; apply N; constructor|]. cbn.
  destruct (existsb (Z.eqb t) r) eqn:E; [reflexivity|]. cbn. apply IH. intros D. apply N. constructor; [|exact D].
  intros I. assert (X : existsb (Z.eqb t) r = true) by (apply existsb_exists; exists t; split; [exact I|apply Z.eqb_refl]). congruence.
Qed.
Lemma repeats_raise gt pred pretty : cols gt <> [] -> cols pred <> [] -> ~ NoDup (index pred) -> index gt <> index pred ->
  compute_rmse gt pred pretty = Err ValueError.
Proof.
  intros G P N D. unfold compute_rmse. destruct (cols gt) as [|[app g] gts]; [easy|]. destruct (cols pred) as [|[c p] preds]; [easy|].
  assert (E : column_error (index gt) g (index pred) p = Err ValueError).
  { unfold column_error, reindex. destruct (list_eq_dec Z.eq_dec (index gt) (index pred)); [easy|]. now rewrite repeats_found. }
  assert (L : loop (index gt) (index pred) pretty ((app, g) :: gts) ((c, p) :: preds) = Err ValueError).
  { cbn [loop]. destruct (if pretty then _ else _) as [q l]. destruct (index pred) as [|t r] eqn:I; [exfalso; apply N; constructor|].
    now rewrite E. }
  now rewrite L.
Qed.
