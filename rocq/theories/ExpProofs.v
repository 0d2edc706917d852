(** Proofs about experiments: independence of the houses, chunks. *)
From Coq Require Import String.
From Verif Require Import Base ApiModel ApiSpec ApiProofs ExpModel ExpSpec.
Import List.
Open Scope list_scope.
Open Scope Z_scope.

(** ** Dictionaries *)
Definition kset (ks : list string) (n : string) : list string := if existsb (String.eqb n) ks then ks else ks ++ [n].
Definition set_all {V} (l : list (string * V)) (d : list (string * V)) := fold_left (fun d e => dict_set (fst e) (snd e) d) l d.

Lemma dict_set_keys {V} n (v : V) d : map fst (dict_set n v d) = kset (map fst d) n.
Proof.
  unfold kset. induction d as [|[n' v'] d IH]; [reflexivity|]. cbn [dict_set map fst existsb].
  destruct (String.eqb n n'); [reflexivity|]. cbn [map fst orb]. rewrite IH. destruct (existsb _ _); reflexivity.
Qed.
Lemma set_all_keys {V} (l d : list (string * V)) : map fst (set_all l d) = fold_left kset (map fst l) (map fst d).
Proof. revert d. induction l as [|[n v] l IH]; intros d; [reflexivity|]. cbn [set_all fold_left map fst]. unfold set_all in IH. rewrite IH, dict_set_keys. reflexivity. Qed.
Lemma existsb_eqb n ks : existsb (String.eqb n) ks = true <-> In n ks.
Proof. rewrite existsb_exists. split; [intros (x & H & E); apply String.eqb_eq in E; subst; exact H|intros H; exists n; split; [exact H|apply String.eqb_refl]]. Qed.
Lemma kset_in ks n x : In x (kset ks n) <-> In x ks \/ x = n.
Proof.
  unfold kset. destruct (existsb (String.eqb n) ks) eqn:E; [apply existsb_eqb in E; split; [tauto|intros [H| ->]; assumption]|].
  rewrite in_app_iff. cbn. split; [intros [H|[H|[]]]; auto|intros [H|H]; auto].
Qed.
Lemma fold_kset_in ns : forall ks x, In x (fold_left kset ns ks) <-> In x ks \/ In x ns.
Proof. induction ns as [|n ns IH]; intros ks x; cbn [fold_left]; [cbn; tauto|]. rewrite IH, kset_in. cbn. split; [intros [[H|H]|H]; auto|intros [H|[H|H]]; auto]. Qed.
Lemma kset_nodup ks n : NoDup ks -> NoDup (kset ks n).
Proof.
  unfold kset. intros H. destruct (existsb (String.eqb n) ks) eqn:E; [exact H|]. assert (~ In n ks) by (intros K; apply existsb_eqb in K; congruence).
  clear E. induction H as [|x l Hx H IH]; [repeat constructor; auto|]. cbn. constructor; [rewrite in_app_iff; cbn; intros [K|[K|[]]]; [contradiction|subst; apply H0; left; reflexivity]|].
  apply IH. intros K. apply H0. right. exact K.
Qed.
Lemma fold_kset_nodup ns : forall ks, NoDup ks -> NoDup (fold_left kset ns ks).
Proof. induction ns as [|n ns IH]; intros ks H; [exact H|]. cbn [fold_left]. apply IH. apply kset_nodup. exact H. Qed.
Lemma fold_kset_same ns : forall ks, (forall n, In n ns -> In n ks) -> fold_left kset ns ks = ks.
Proof.
  induction ns as [|n ns IH]; intros ks H; [reflexivity|]. cbn [fold_left]. assert (E : kset ks n = ks). { unfold kset. rewrite (proj2 (existsb_eqb n ks)); [reflexivity|apply H; left; reflexivity]. }
  rewrite E. apply IH. intros x Hx. apply H. right. exact Hx.
Qed.
Lemma fold_kset_fresh ns : forall ks, NoDup (ks ++ ns) -> fold_left kset ns ks = ks ++ ns.
Proof.
  induction ns as [|n ns IH]; intros ks H; [rewrite app_nil_r; reflexivity|]. cbn [fold_left]. assert (E : kset ks n = ks ++ [n]).
  { unfold kset. destruct (existsb (String.eqb n) ks) eqn:E; [|reflexivity]. apply existsb_eqb in E. apply NoDup_remove_2 in H. destruct H. apply in_or_app. left. exact E. }
  rewrite E. replace (ks ++ n :: ns) with ((ks ++ [n]) ++ ns) in * by (rewrite <- app_assoc; reflexivity). apply IH. exact H.
Qed.

Lemma lookup_set {V} n m (v : V) d : lookup n (dict_set m v d) = if String.eqb n m then Some v else lookup n d.
Proof.
  induction d as [|[k w] d IH]; cbn [dict_set lookup]; [reflexivity|]. destruct (String.eqb m k) eqn:E.
  - apply String.eqb_eq in E. subst k. cbn [lookup]. destruct (String.eqb n m); reflexivity.
  - cbn [lookup]. rewrite IH. destruct (String.eqb n k) eqn:E1; [|reflexivity]. destruct (String.eqb n m) eqn:E2; [|reflexivity].
    apply String.eqb_eq in E1, E2. subst. rewrite String.eqb_refl in E. discriminate.
Qed.
Lemma set_all_lookup {V} n (l : list (string * V)) : forall d, lookup n (set_all l d) = match lookup n (rev l) with Some v => Some v | None => lookup n d end.
Proof.
  assert (APP : forall a b : list (string * V), lookup n (a ++ b) = match lookup n a with Some v => Some v | None => lookup n b end).
  { induction a as [|[k w] a IH]; intros b; [reflexivity|]. cbn [app lookup]. destruct (String.eqb n k); [reflexivity|apply IH]. }
  induction l as [|[m v] l IH]; intros d; [reflexivity|]. cbn [set_all fold_left fst snd rev]. unfold set_all in IH. rewrite IH, lookup_set, APP. cbn [lookup].
  destruct (lookup n (rev l)); [reflexivity|]. destruct (String.eqb n m); reflexivity.
Qed.
Lemma lookup_in {V} n (d : list (string * V)) : lookup n d <> None <-> In n (map fst d).
Proof.
  induction d as [|[k v] d IH]; cbn [lookup map fst]; [split; [intros H; contradiction|intros []]|]. destruct (String.eqb n k) eqn:E.
  - apply String.eqb_eq in E. subst. split; [intros _; left; reflexivity|discriminate].
  - apply String.eqb_neq in E. rewrite IH. split; [intros H; right; exact H|intros [H|H]; [congruence|exact H]].
Qed.
Lemma lookup_some {V} n (v : V) d : lookup n d = Some v -> In (n, v) d.
Proof. induction d as [|[k w] d IH]; cbn [lookup]; [discriminate|]. destruct (String.eqb n k) eqn:E; [intros [= ->]; apply String.eqb_eq in E; subst; left; reflexivity|intros H; right; apply IH; exact H]. Qed.
Lemma dict_ext {V} (d e : list (string * V)) : map fst d = map fst e -> NoDup (map fst d) -> (forall n, lookup n d = lookup n e) -> d = e.
Proof.
  revert e. induction d as [|[n v] d IH]; intros [|[m w] e] E N H; try discriminate; [reflexivity|]. cbn [map fst] in E. injection E as <- E. cbn [map fst] in N. inversion N as [|? ? N1 N2]; subst.
  pose proof (H n) as Hn. cbn [lookup] in Hn. rewrite String.eqb_refl in Hn. injection Hn as <-. f_equal. apply IH; [exact E|exact N2|]. intros k. specialize (H k). cbn [lookup] in H.
  destruct (String.eqb k n) eqn:Ek; [|exact H]. apply String.eqb_eq in Ek. subst k. assert (A : lookup n d = None) by (destruct (lookup n d) eqn:X; [exfalso; apply N1; apply lookup_in; congruence|reflexivity]).
  assert (B : lookup n e = None) by (destruct (lookup n e) eqn:X; [exfalso; apply N1; rewrite E; apply lookup_in; congruence|reflexivity]). congruence.
Qed.
(** Setting all the names again forgets what was there. *)
Lemma set_all_forget {V} (l d : list (string * V)) : map fst d = fold_left kset (map fst l) [] -> set_all l d = set_all l [].
Proof.
  intros E. apply dict_ext.
  - rewrite !set_all_keys, E. cbn [map]. apply fold_kset_same. intros n Hn. apply fold_kset_in. right. exact Hn.
  - rewrite set_all_keys. apply fold_kset_nodup. rewrite E. apply fold_kset_nodup. constructor.
  - intros n. rewrite !set_all_lookup. destruct (lookup n (rev l)) eqn:X; [reflexivity|]. cbn [lookup].
    destruct (lookup n d) eqn:Y; [|reflexivity]. exfalso. assert (K : In n (map fst d)) by (apply lookup_in; congruence). rewrite E in K. apply fold_kset_in in K. destruct K as [[]|K].
    assert (In n (map fst (rev l))) by (rewrite map_rev, <- in_rev; exact K). apply lookup_in in H. contradiction.
Qed.

(** ** The ground truth *)
Lemma foldM_app {A B} (f : B -> A -> res B) l m b : foldM f (l ++ m) b = do c <- foldM f l b; foldM f m c.
Proof. revert b. induction l as [|x l IH]; intros b; [reflexivity|]. cbn [app foldM]. destruct (f b x); [cbn [bind]; apply IH|reflexivity]. Qed.
Lemma mapM_length {A B} (f : A -> res B) l : forall ys, mapM f l = Ok ys -> length ys = length l.
Proof. induction l as [|x l IH]; intros ys; cbn [mapM]; [intros [= <-]; reflexivity|]. destruct (f x); [|discriminate]. cbn [bind]. destruct (mapM f l); [|discriminate]. intros [= <-]. cbn. f_equal. apply IH. reflexivity. Qed.
Lemma mapM_ext {A B} (f g : A -> res B) l : (forall x, In x l -> f x = g x) -> mapM f l = mapM g l.
Proof. induction l as [|x l IH]; intros H; [reflexivity|]. cbn [mapM]. rewrite (H x) by (left; reflexivity). rewrite IH by (intros y Hy; apply H; right; exact Hy). reflexivity. Qed.

Lemma truth_fold (b : list (string * frame)) : forall d,
  foldM (fun d s => do v <- series_of (snd s); Ok (dict_set (fst s) v d)) b d =
  do vs <- mapM (fun s => series_of (snd s)) b; Ok (set_all (combine (map fst b) vs) d).
Proof.
  induction b as [|[n f] b IH]; intros d; [reflexivity|]. cbn [foldM mapM map fst snd]. destruct (series_of f) as [v|e]; [|reflexivity]. cbn [bind]. rewrite IH.
  destruct (mapM _ b); reflexivity.
Qed.
Lemma map_fst_combine {A B} (l : list A) : forall m : list B, length m = length l -> map fst (combine l m) = l.
Proof. induction l as [|x l IH]; intros [|y m] H; try discriminate; [reflexivity|]. cbn. f_equal. apply IH. cbn in H. lia. Qed.
Lemma map_snd_combine {A B} (l : list A) : forall m : list B, length m = length l -> map snd (combine l m) = m.
Proof. induction l as [|x l IH]; intros [|y m] H; try discriminate; [reflexivity|]. cbn. f_equal. apply IH. cbn in H. lia. Qed.

Lemma truth_of_keys b d : truth_of b = Ok d -> map fst d = fold_left kset (map fst b) [].
Proof.
  unfold truth_of. rewrite truth_fold. destruct (mapM _ b) as [vs|e] eqn:E; [|discriminate]. cbn [bind]. intros [= <-]. apply mapM_length in E.
  rewrite set_all_keys, map_fst_combine; [reflexivity|]. rewrite map_length. exact E.
Qed.

(** The entries of earlier houses do not matter. *)
Lemma truth_of_forget subs b d : truth_of subs = Ok d -> map fst d = [] \/ map fst d = fold_left kset (map fst b) [] -> truth_of (subs ++ b) = truth_of b.
Proof.
  intros H K. unfold truth_of in *. rewrite foldM_app, H. cbn [bind]. rewrite !truth_fold. destruct (mapM _ b) as [vs|e] eqn:E; [|reflexivity]. cbn [bind]. f_equal.
  destruct K as [K|K]; [apply map_eq_nil in K; subst d; reflexivity|]. apply set_all_forget. rewrite K. f_equal. apply mapM_length in E. symmetry. apply map_fst_combine. rewrite map_length. exact E.
Qed.

Section Exp.
Context {L : Type}.
Variable loss : string -> option (list (Z * option Z) -> list (Z * Z) -> L).
Notation classifier := (string * (frame -> list (string * list Z)))%type.

Lemma call_predict_truth metrics (cl : list classifier) m s s' : truth_of s = truth_of s' -> call_predict loss metrics cl m s = call_predict loss metrics cl m s'.
Proof.
  intros H. unfold call_predict. rewrite (mapM_ext _ (fun c => do gp <- predict_named s' (snd c m); Ok (fst c, gp))); [reflexivity|].
  intros c _. unfold predict_named. rewrite H. reflexivity.
Qed.
Lemma call_predict_ok metrics (cl : list classifier) m s r : call_predict loss metrics cl m s = Ok r -> exists d, truth_of s = Ok d.
Proof.
  destruct cl as [|c cl]; [discriminate|]. unfold call_predict. cbn [mapM]. unfold predict_named at 1. destruct (truth_of s) as [d|e]; [exists d; reflexivity|discriminate].
Qed.

Lemma prepare_length drop agg m apps m' apps' : prepare drop agg m apps = Ok (m', apps') -> length apps' = length apps.
Proof.
  unfold prepare. intros H. assert (G : forall m1 a1, (if drop then do (m, a, _) <- dropna m apps; Ok (m, a) else Ok (m, apps)) = Ok (m1, a1) -> length a1 = length apps).
  { destruct drop; [|intros m1 a1 [= _ <-]; reflexivity]. unfold dropna. intros m1 a1. destruct (loc _ _) as [x|]; [|discriminate]. cbn [bind]. destruct (loc x _) as [y|]; [|discriminate]. cbn [bind].
    destruct (mapM _ _) as [z|] eqn:E; [|discriminate]. cbn [bind]. intros [= _ <-]. apply mapM_length in E. rewrite E, map_length. reflexivity. }
  destruct (if drop then _ else _) as [[m1 a1]|]; [|discriminate]. cbn [bind] in H. specialize (G _ _ eq_refl).
  destruct (if agg then _ else _) as [y|]; [|discriminate]. cbn [bind] in H. injection H as _ <-. exact G.
Qed.

Definition clean (names : list string) (subs : list (string * frame)) : Prop :=
  exists d, truth_of subs = Ok d /\ (map fst d = [] \/ map fst d = fold_left kset names []).

Lemma test_house_spec {K} drop agg names metrics (cl : list classifier) (h : house K) subs errs : clean names subs ->
  match test_house loss drop agg names metrics cl ([], []) h with
  | Err e => test_house loss drop agg names metrics cl (subs, errs) h = Err e
  | Ok (_, es) => exists subs', test_house loss drop agg names metrics cl (subs, errs) h = Ok (subs', errs ++ es) /\ clean names subs'
  end.
Proof.
  intros (d & Hd & Kd). unfold test_house. cbn [fst snd]. destruct (next (h_mains h)) as [m|]; [|reflexivity]. cbn [bind].
  destruct (mapM _ names) as [apps|] eqn:Ea; [|reflexivity]. cbn [bind]. destruct (prepare drop agg m apps) as [[m' apps']|] eqn:Ep; [|reflexivity]. cbn [bind app].
  pose proof (prepare_length _ _ _ _ _ _ Ep) as Lp. pose proof (mapM_length _ _ _ Ea) as La.
  assert (Kf : map fst (combine names apps') = names) by (apply map_fst_combine; congruence).
  assert (T : truth_of (subs ++ combine names apps') = truth_of (combine names apps')) by (apply (truth_of_forget _ _ d Hd); rewrite Kf; exact Kd).
  rewrite (call_predict_truth metrics cl m' _ _ T). destruct (call_predict loss metrics cl m' (combine names apps')) as [r|] eqn:Ec; [|reflexivity]. cbn [bind].
  eexists. split; [reflexivity|]. destruct (call_predict_ok _ _ _ _ _ Ec) as [d' Hd']. exists d'. split; [congruence|]. right. rewrite (truth_of_keys _ _ Hd'), Kf. reflexivity.
Qed.

Lemma test_jointly_one {K} drop agg names metrics (cl : list classifier) (h : house K) :
  test_jointly loss drop agg names metrics cl [h] = do st <- test_house loss drop agg names metrics cl ([], []) h; Ok (snd st).
Proof. unfold test_jointly. cbn [foldM]. destruct (test_house loss drop agg names metrics cl ([], []) h); reflexivity. Qed.

Lemma test_independent {K} drop agg names metrics (cl : list classifier) (hs : list (house K)) :
  test_jointly loss drop agg names metrics cl hs = do es <- mapM (fun h => test_jointly loss drop agg names metrics cl [h]) hs; Ok (concat es).
Proof.
  unfold test_jointly at 1. assert (G : forall subs errs, clean names subs ->
    (do st <- foldM (test_house loss drop agg names metrics cl) hs (subs, errs); Ok (snd st)) =
    do es <- mapM (fun h => test_jointly loss drop agg names metrics cl [h]) hs; Ok (errs ++ concat es)).
  { induction hs as [|h hs IH]; intros subs errs Hc; [cbn; rewrite app_nil_r; reflexivity|]. cbn [foldM mapM]. rewrite test_jointly_one.
    pose proof (test_house_spec drop agg names metrics cl h subs errs Hc) as H. destruct (test_house loss drop agg names metrics cl ([], []) h) as [[s0 es]|e].
    - destruct H as (subs' & E & Hc'). rewrite E. cbn [bind snd]. rewrite (IH _ _ Hc'). destruct (mapM _ hs); [|reflexivity]. cbn [bind concat]. rewrite app_assoc. reflexivity.
    - rewrite H. reflexivity. }
  rewrite (G [] []); [reflexivity|]. exists []. split; [reflexivity|left; reflexivity].
Qed.

(** ** Chunks *)
Lemma mapM_app {A B} (f : A -> res B) l m : mapM f (l ++ m) = do a <- mapM f l; do b <- mapM f m; Ok (a ++ b).
Proof.
  induction l as [|x l IH]; [cbn; destruct (mapM f m); reflexivity|]. cbn [app mapM]. destruct (f x); [|reflexivity]. cbn [bind]. rewrite IH. destruct (mapM f l); [|reflexivity]. cbn [bind].
  destruct (mapM f m); reflexivity.
Qed.
Lemma mapM_next {A} (g : A -> frame) l : mapM (fun n => next [g n]) l = Ok (map g l).
Proof. induction l as [|x l IH]; [reflexivity|]. cbn [mapM next bind map] in *. rewrite IH. reflexivity. Qed.

Lemma test_chunks_spec {K} drop agg names metrics (cl : list classifier) (h : house K) : forall mains k, (forall i, (i < length mains)%nat -> nth_chunk (h_mains h) (k + i) = nth_chunk mains i) ->
  test_chunks loss drop agg names metrics cl h k mains =
  do es <- mapM (fun i => test_jointly loss drop agg names metrics cl [mkHouse (h_key h, i) [nth_chunk (h_mains h) i] (fun n => [nth_chunk (h_app h n) i])]) (seq k (length mains)); Ok (concat es).
Proof.
  induction mains as [|m mains IH]; intros k H; [reflexivity|]. cbn [test_chunks length seq mapM]. rewrite test_jointly_one. unfold test_house at 1. cbn [h_mains h_app h_key fst snd app].
  rewrite (mapM_next (fun n => nth_chunk (h_app h n) k)). cbn [next bind]. pose proof (H 0%nat ltac:(cbn; lia)) as H0. rewrite Nat.add_0_r in H0. change (nth_chunk (m :: mains) 0) with m in H0. rewrite H0.
  destruct (prepare drop agg m _) as [[m' apps]|]; [|reflexivity]. cbn [bind]. destruct (call_predict loss metrics cl m' (combine names apps)) as [r|]; [|reflexivity]. cbn [bind snd].
  rewrite IH.
  - destruct (mapM _ (seq (S k) (length mains))); reflexivity.
  - intros i Hi. specialize (H (S i) ltac:(cbn; lia)). rewrite Nat.add_succ_r in H. exact H.
Qed.

Lemma test_chunk_wise_spec {K} drop agg names metrics (cl : list classifier) (hs : list (house K)) :
  test_chunk_wise loss drop agg names metrics cl hs = test_jointly loss drop agg names metrics cl (flat_map chunk_houses hs).
Proof.
  rewrite test_independent. unfold test_chunk_wise. induction hs as [|h hs IH]; [reflexivity|]. cbn [mapM flat_map]. rewrite mapM_app.
  rewrite (test_chunks_spec drop agg names metrics cl h (h_mains h) 0) by reflexivity.
  assert (E : mapM (fun h0 => test_jointly loss drop agg names metrics cl [h0]) (chunk_houses h) =
              mapM (fun i => test_jointly loss drop agg names metrics cl [mkHouse (h_key h, i) [nth_chunk (h_mains h) i] (fun n => [nth_chunk (h_app h n) i])]) (seq 0 (length (h_mains h)))).
  { unfold chunk_houses. induction (seq 0 (length (h_mains h))) as [|i l IHl]; [reflexivity|]. cbn [map mapM]. rewrite IHl. reflexivity. }
  rewrite E. destruct (mapM _ (seq 0 _)) as [es|]; [|reflexivity]. cbn [bind]. revert IH. destruct (mapM _ hs) as [ls|], (mapM _ (flat_map chunk_houses hs)) as [fs|]; cbn [bind]; intros IH; try discriminate.
  - injection IH as IH. cbn [concat]. rewrite concat_app, IH. reflexivity.
  - injection IH as ->. reflexivity.
Qed.
End Exp.
