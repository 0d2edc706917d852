(** Proofs about removing keys and histories of an HDF5 file. *)
From Coq Require Import Ascii String.
From Verif Require Import Base TimeFrameModel StoreModel StoreSpec KeyModel KeySpec KeyProofs ConvModel ConvSpec ConvProofs RemoveModel RemoveSpec.
Import List.
Open Scope list_scope.
Open Scope nat_scope.

Section Proofs.
Context {A : Type}.
Implicit Types (n c root : node A) (e : event A) (h : list (event A)).

(** ** Paths *)
Fixpoint prefixb (p q : list str) : bool :=
  match p, q with
  | [], _ => true
  | s :: p, t :: q => str_eqb s t && prefixb p q
  | _, [] => false
  end.
Lemma prefixb_spec p : forall q, prefixb p q = true <-> exists r, q = p ++ r.
Proof.
  induction p as [|s p IH]; intros [|t q]; cbn [prefixb List.app].
  - split; [exists []|]; reflexivity.
  - split; [exists (t :: q)|]; reflexivity.
  - split; [discriminate|intros [r K]; discriminate].
  - rewrite Bool.andb_true_iff, IH, str_eqb_spec. split.
    + intros [-> [r ->]]. exists r. reflexivity.
    + intros [r [= -> ->]]. split; [reflexivity|exists r; reflexivity].
Qed.
Lemma prefixb_refl p : prefixb p p = true.
Proof. apply prefixb_spec. exists []. rewrite app_nil_r. reflexivity. Qed.
Lemma prefixb_anti p q : prefixb p q = true -> prefixb q p = true -> p = q.
Proof.
  rewrite !prefixb_spec. intros [r ->] [s K]. rewrite <- app_assoc in K.
  assert (E : r ++ s = []) by (apply (app_inv_head p); rewrite app_nil_r; symmetry; exact K).
  apply app_eq_nil in E. destruct E as [-> _]. rewrite app_nil_r. reflexivity.
Qed.
Lemma prefixb_trans p q r : prefixb p q = true -> prefixb q r = true -> prefixb p r = true.
Proof. rewrite !prefixb_spec. intros [x ->] [y ->]. exists (x ++ y). apply app_assoc_reverse. Qed.

Definition path_dec (p q : list str) : {p = q} + {p <> q} := list_eq_dec (list_eq_dec Ascii.ascii_dec) p q.

(** ** What can be seen at a path *)
Definition obs n (q : list str) : option (option (list (sample A)) * option val) :=
  match find_node n q with None => None | Some c => Some (n_table c, n_meta c) end.

Lemma obs_cons n s q : obs n (s :: q) = match child s (n_children n) with None => None | Some c => obs c q end.
Proof. unfold obs. cbn [find_node]. destruct (child s (n_children n)); reflexivity. Qed.
Lemma obs_empty q : obs (Node None None []) q = match q with [] => Some (None, None) | _ => None end.
Proof. destruct q; reflexivity. Qed.

Definition or_new (o : option (option (list (sample A)) * option val)) := match o with None => (None, None) | Some x => x end.

Lemma obs_update_cons f n s r q : obs (update_node f n (s :: r)) q =
  match q with
  | [] => obs n []
  | t :: q' => if str_eqb t s then obs (update_node f (match child s (n_children n) with None => Node None None [] | Some c => c end) r) q'
               else obs n q
  end.
Proof.
  destruct q as [|t q]; [reflexivity|]. rewrite !obs_cons. cbn [update_node n_children]. rewrite child_set. destruct (str_eqb t s); reflexivity.
Qed.

(** Away from the updated node and what is below it. *)
Lemma obs_update f p : forall n q, prefixb p q = false ->
  obs (update_node f n p) q = match obs n q with Some o => Some o | None => if prefixb q p then Some (None, None) else None end.
Proof.
  induction p as [|s r IH]; intros n q H; [discriminate|]. rewrite obs_update_cons. destruct q as [|t q]; [reflexivity|].
  cbn [prefixb] in *. rewrite obs_cons. destruct (str_eqb t s) eqn:E.
  - apply str_eqb_spec in E. subst t. rewrite str_eqb_refl in H. cbn [andb] in *. rewrite IH by exact H.
    destruct (child s (n_children n)) as [c|]; [reflexivity|]. rewrite obs_empty. destruct q; [destruct r; [discriminate|]; reflexivity|reflexivity].
  - cbn [andb]. destruct (child t (n_children n)) as [c|]; [destruct (obs c q)|]; reflexivity.
Qed.

(** At and below the updated node. *)
Lemma obs_update_under f p : forall n r, obs (update_node f n p) (p ++ r) =
  obs (f (match find_node n p with None => Node None None [] | Some c => c end)) r.
Proof.
  induction p as [|s p IH]; intros n r; [reflexivity|]. rewrite obs_update_cons. cbn [List.app]. rewrite str_eqb_refl, IH. cbn [find_node].
  destruct (child s (n_children n)) as [c|]; [reflexivity|]. destruct p; reflexivity.
Qed.

Lemma obs_same_children n1 n2 r : n_children n1 = n_children n2 -> r <> [] -> obs n1 r = obs n2 r.
Proof. intros E N. destruct r as [|s r]; [contradiction|]. rewrite !obs_cons, E. reflexivity. Qed.

Lemma obs_under p : forall n r, obs n (p ++ r) = match find_node n p with None => None | Some c => obs c r end.
Proof.
  induction p as [|s p IH]; intros n r; [reflexivity|]. cbn [List.app find_node]. rewrite obs_cons. destruct (child s (n_children n)); [apply IH|reflexivity].
Qed.

(** An update that keeps what is below. *)
Lemma obs_update_keep f p n q : (forall c, n_children (f c) = n_children c) ->
  obs (update_node f n p) q =
  if path_dec p q then Some (let c := f (match find_node n p with None => Node None None [] | Some c => c end) in (n_table c, n_meta c))
  else match obs n q with Some o => Some o | None => if prefixb q p then Some (None, None) else None end.
Proof.
  intros K. destruct (path_dec p q) as [<-|N].
  - pose proof (obs_update_under f p n []) as E. rewrite app_nil_r in E. rewrite E. reflexivity.
  - destruct (prefixb p q) eqn:P; [|apply obs_update; exact P].
    assert (Q : prefixb q p = false) by (destruct (prefixb q p) eqn:Q; [|reflexivity]; exfalso; apply N; exact (prefixb_anti _ _ P Q)).
    rewrite Q. apply prefixb_spec in P. destruct P as [r ->].
    assert (R : r <> []) by (intros ->; apply N; rewrite app_nil_r; reflexivity).
    rewrite obs_update_under, obs_under. rewrite (obs_same_children _ (match find_node n p with None => Node None None [] | Some c => c end) r (K _) R).
    destruct (find_node n p) as [c|]; [destruct (obs c r); reflexivity|]. rewrite obs_empty. destruct r; [contradiction|reflexivity].
Qed.

(** ** Removing *)
Lemma child_del s (l : list (str * node A)) t : child t (del_child s l) = if str_eqb t s then None else child t l.
Proof.
  induction l as [|[a w] l IH]; cbn [del_child child]; [destruct (str_eqb t s); reflexivity|].
  destruct (str_eqb s a) eqn:E; cbn [child]; rewrite IH.
  - apply str_eqb_spec in E. subst a. destruct (str_eqb t s); reflexivity.
  - destruct (str_eqb t a) eqn:E2; [|reflexivity]. apply str_eqb_spec in E2. subst a.
    rewrite str_eqb_neq; [reflexivity|]. intros ->. rewrite str_eqb_refl in E. discriminate.
Qed.

Lemma obs_remove p : forall n q, p <> [] -> obs (remove_node n p) q = if prefixb p q then None else obs n q.
Proof.
  induction p as [|s r IH]; intros n q N; [contradiction|]. cbn [remove_node]. destruct r as [|s' r].
  - destruct q as [|t q]; [reflexivity|]. rewrite !obs_cons. cbn [n_children prefixb]. rewrite child_del.
    destruct (str_eqb t s) eqn:E.
    + apply str_eqb_spec in E. subst t. rewrite str_eqb_refl. reflexivity.
    + assert (E' : str_eqb s t = false) by (destruct (str_eqb s t) eqn:X; [apply str_eqb_spec in X; subst t; rewrite str_eqb_refl in E; discriminate|reflexivity]).
      rewrite E'. reflexivity.
  - destruct q as [|t q].
    + destruct (child s (n_children n)); reflexivity.
    + destruct (child s (n_children n)) as [c|] eqn:C.
      * rewrite !obs_cons. cbn [n_children prefixb]. rewrite child_set. destruct (str_eqb t s) eqn:E.
        -- apply str_eqb_spec in E. subst t. rewrite str_eqb_refl, C. rewrite IH by discriminate. reflexivity.
        -- assert (E' : str_eqb s t = false) by (destruct (str_eqb s t) eqn:X; [apply str_eqb_spec in X; subst t; rewrite str_eqb_refl in E; discriminate|reflexivity]).
           rewrite E'. reflexivity.
      * cbn [prefixb]. rewrite obs_cons. destruct (str_eqb s t) eqn:E; [|reflexivity]. apply str_eqb_spec in E. subst t. rewrite C. destruct (true && _); reflexivity.
Qed.

(** ** One operation *)
Definition step_obs e (see : list str -> option (option (list (sample A)) * option val)) (q : list str) :=
  match e with
  | Append k [] | Put k [] => see q
  | Append k rows =>
      if path_dec (key_parts k) q
      then Some (extend (fst (or_new (see q))) rows, snd (or_new (see q)))
      else match see q with Some o => Some o | None => if prefixb q (key_parts k) then Some (None, None) else None end
  | Put k rows =>
      if path_dec (key_parts k) q then Some (Some rows, None)
      else if prefixb (key_parts k) q then None
      else match see q with Some o => Some o | None => if prefixb q (key_parts k) then Some (None, None) else None end
  | Remove k =>
      if path_dec (key_parts k) [] then see q
      else if prefixb (key_parts k) q then None else see q
  | Save k m =>
      if path_dec (key_parts k) q then match see q with None => None | Some o => Some (fst o, Some m) end else see q
  end.

Lemma obs_none_prefix n p q : obs n p = None -> prefixb p q = true -> obs n q = None.
Proof.
  intros H P. apply prefixb_spec in P. destruct P as [r ->]. rewrite obs_under. unfold obs in H. destruct (find_node n p); [discriminate|reflexivity].
Qed.

Lemma obs_some_prefix n p q o : obs n q = Some o -> prefixb p q = true -> exists o', obs n p = Some o'.
Proof. intros H P. destruct (obs n p) as [o'|] eqn:E; [exists o'; reflexivity|]. rewrite (obs_none_prefix n p q E P) in H. discriminate. Qed.

Lemma obs_step e root q : obs (fst (hdf_step e root)) q = step_obs e (obs root) q.
Proof.
  destruct e as [k rows|k rows|k|k m]; cbn [hdf_step step_obs].
  - destruct rows as [|x rows]; [reflexivity|]. cbn [hdf_append fst]. rewrite obs_update_keep by reflexivity.
    destruct (path_dec (key_parts k) q) as [<-|N]; [|reflexivity]. cbn [n_table n_meta]. unfold obs, or_new.
    destruct (find_node root (key_parts k)) as [c|]; cbn [fst snd extend n_table n_meta]; [destruct (n_table c); reflexivity|reflexivity].
  - destruct rows as [|x rows]; [reflexivity|]. cbn [hdf_put fst]. destruct (path_dec (key_parts k) q) as [<-|N].
    + pose proof (obs_update_under (fun _ => Node None (Some (x :: rows)) []) (key_parts k) root []) as E. rewrite app_nil_r in E. rewrite E. reflexivity.
    + destruct (prefixb (key_parts k) q) eqn:P; [|rewrite obs_update by exact P; reflexivity].
      apply prefixb_spec in P. destruct P as [r E]. rewrite E. rewrite obs_update_under.
      destruct r; [exfalso; apply N; rewrite E, app_nil_r; reflexivity|reflexivity].
  - unfold hdf_remove, get_node. destruct (find_node root (key_parts k)) as [c|] eqn:F.
    + destruct (path_dec (key_parts k) []) as [E|N]; [rewrite E; reflexivity|].
      destruct (key_parts k) as [|s p] eqn:E; [contradiction|]. cbn [fst]. rewrite obs_remove by discriminate. reflexivity.
    + cbn [fst]. destruct (path_dec (key_parts k) []) as [E|N]; [reflexivity|].
      destruct (prefixb (key_parts k) q) eqn:P; [|reflexivity]. apply (obs_none_prefix root (key_parts k)); [unfold obs; rewrite F; reflexivity|exact P].
  - unfold hdf_save_metadata. destruct (str_eqb k [slash]) eqn:S1.
    + apply str_eqb_spec in S1. subst k. cbn [fst]. change (key_parts [slash]) with (@nil str). destruct (path_dec [] q) as [<-|N]; [reflexivity|].
      apply obs_same_children; [reflexivity|intros ->; contradiction].
    + unfold get_node. destruct (find_node root (key_parts k)) as [c|] eqn:F; cbn [fst].
      * rewrite obs_update_keep by reflexivity. rewrite F. destruct (path_dec (key_parts k) q) as [<-|N].
        -- unfold obs. rewrite F. reflexivity.
        -- destruct (obs root q) as [o|] eqn:O; [reflexivity|]. destruct (prefixb q (key_parts k)) eqn:P; [|reflexivity].
           exfalso.
           pose proof (obs_none_prefix root q (key_parts k) O P) as X. unfold obs in X. rewrite F in X. discriminate.
      * destruct (path_dec (key_parts k) q) as [<-|N]; [|reflexivity]. unfold obs. rewrite F. reflexivity.
Qed.

Lemma run_app h1 h2 root : hdf_run (h1 ++ h2) root = hdf_run h2 (hdf_run h1 root).
Proof. apply fold_left_app. Qed.

(** ** Tables *)
Lemma table_obs root k : table_at root k = fst (or_new (obs root (key_parts k))).
Proof. unfold table_at, get_node, obs, or_new. destruct (find_node root (key_parts k)); reflexivity. Qed.
Lemma meta_obs root k : hdf_load_metadata root k = match snd (or_new (obs root (key_parts k))) with None => Err AttributeError | Some m => Ok m end.
Proof.
  unfold hdf_load_metadata. destruct (str_eqb k [slash]) eqn:E.
  - apply str_eqb_spec in E. subst k. reflexivity.
  - unfold get_node, obs, or_new. destruct (find_node root (key_parts k)); reflexivity.
Qed.
Lemma present_obs root k : present root k <-> obs root (key_parts k) <> None.
Proof. unfold present, get_node, obs. destruct (find_node root (key_parts k)); split; congruence. Qed.

Lemma extend_nil (o : option (list (sample A))) : extend o [] = o.
Proof. destruct o as [o|]; cbn [extend]; [rewrite app_nil_r|]; reflexivity. Qed.
Lemma extend_extend o (a b : list (sample A)) : extend (extend o a) b = extend o (a ++ b).
Proof. destruct o as [o|]; destruct a as [|x a]; destruct b as [|y b]; cbn [extend List.app]; rewrite ?app_nil_r; try reflexivity. f_equal. rewrite <- app_assoc. reflexivity. Qed.

Lemma covers_prefix k k' : covers k k' <-> prefixb (key_parts k) (key_parts k') = true.
Proof. unfold covers. rewrite prefixb_spec. reflexivity. Qed.

Lemma step_quiet e root k : ~ erases e k ->
  table_at (fst (hdf_step e root)) k = extend (table_at root k) (match e with Append q rows => if path_dec (key_parts q) (key_parts k) then rows else [] | _ => [] end).
Proof.
  intros Q. rewrite !table_obs, obs_step. unfold erases in Q. destruct e as [q rows|q rows|q|q m]; cbn [step_obs].
  - destruct rows as [|x rows]; [destruct (path_dec _ _); rewrite extend_nil; reflexivity|]. destruct (path_dec (key_parts q) (key_parts k)) as [E|N]; [reflexivity|].
    rewrite extend_nil. destruct (obs root (key_parts k)) as [o|]; [reflexivity|]. destruct (prefixb _ _); reflexivity.
  - rewrite extend_nil. destruct rows as [|x rows]; [reflexivity|]. destruct (prefixb (key_parts q) (key_parts k)) eqn:P.
    + exfalso. apply Q. split; [discriminate|]. apply covers_prefix. exact P.
    + destruct (path_dec (key_parts q) (key_parts k)) as [E|N]; [rewrite E, prefixb_refl in P; discriminate|].
      destruct (obs root (key_parts k)) as [o|]; [reflexivity|]. destruct (prefixb (key_parts k) _); reflexivity.
  - rewrite extend_nil. destruct (path_dec (key_parts q) []) as [E|N]; [reflexivity|]. destruct (prefixb (key_parts q) (key_parts k)) eqn:P; [|reflexivity].
    exfalso. apply Q. split; [exact N|]. apply covers_prefix. exact P.
  - rewrite extend_nil. destruct (path_dec _ _) as [E|N]; [|reflexivity]. destruct (obs root (key_parts k)) as [o|]; reflexivity.
Qed.

Lemma since h k rows : appended k h rows -> Forall (fun e => ~ erases e k) h -> forall root,
  table_at (hdf_run h root) k = extend (table_at root k) rows.
Proof.
  induction 1 as [|q rows h l S _ IH|e h l N _ IH]; intros F root; [rewrite extend_nil; reflexivity| |].
  - apply Forall_cons_iff in F. destruct F as [F1 F]. cbn [hdf_run fold_left]. change (fold_left _ h ?r) with (hdf_run h r). rewrite IH by exact F. rewrite step_quiet by exact F1.
    destruct (path_dec (key_parts q) (key_parts k)) as [E|E]; [|contradiction]. apply extend_extend.
  - apply Forall_cons_iff in F. destruct F as [F1 F]. cbn [hdf_run fold_left]. change (fold_left _ h ?r) with (hdf_run h r). rewrite IH by exact F. rewrite step_quiet by exact F1.
    f_equal. destruct e as [q rows| | |]; try apply extend_nil. destruct (path_dec (key_parts q) (key_parts k)) as [E|E]; [exfalso; exact (N q rows eq_refl E)|apply extend_nil].
Qed.

Lemma after_put h1 q k rows h2 l root : same_key q k -> rows <> [] -> Forall (fun e => ~ erases e k) h2 -> appended k h2 l ->
  table_at (hdf_run (h1 ++ Put q rows :: h2) root) k = Some (rows ++ l).
Proof.
  intros S N F K. rewrite run_app. cbn [hdf_run fold_left]. change (fold_left _ h2 ?r) with (hdf_run h2 r). rewrite (since h2 k l K F).
  rewrite table_obs, obs_step. cbn [step_obs]. destruct rows as [|x rows]; [contradiction|]. destruct (path_dec (key_parts q) (key_parts k)) as [E|E]; [reflexivity|contradiction].
Qed.

Lemma after_erase h1 e k h2 l root : destroys e k -> Forall (fun e => ~ erases e k) h2 -> appended k h2 l ->
  table_at (hdf_run (h1 ++ e :: h2) root) k = extend None l.
Proof.
  intros D F K. rewrite run_app. cbn [hdf_run fold_left]. change (fold_left _ h2 ?r) with (hdf_run h2 r). rewrite (since h2 k l K F).
  f_equal. rewrite table_obs, obs_step. destruct e as [q rows|q rows|q|q m]; cbn [destroys step_obs] in *; try contradiction.
  - destruct D as (N & C & S). destruct rows as [|x rows]; [contradiction|]. destruct (path_dec (key_parts q) (key_parts k)) as [E|E]; [contradiction|].
    apply covers_prefix in C. rewrite C. reflexivity.
  - destruct D as [N C]. destruct (path_dec (key_parts q) []) as [E|E]; [contradiction|]. apply covers_prefix in C. rewrite C. reflexivity.
Qed.

Lemma from_new h k l : Forall (fun e => ~ erases e k) h -> appended k h l -> table_at (hdf_run h new_hdf) k = extend None l.
Proof.
  intros F K. rewrite (since h k l K F). f_equal. rewrite table_obs. unfold new_hdf. rewrite obs_empty. destruct (key_parts k); reflexivity.
Qed.

Lemma appended_exists k h : exists l, appended k h l.
Proof.
  induction h as [|e h [l IH]]; [exists []; constructor|].
  assert (O : (forall q rows, e = Append q rows -> ~ same_key q k) -> exists l, appended k (e :: h) l) by (intros N; exists l; apply appended_other; assumption).
  destruct e as [q rows|q rows|q|q m]; [|apply O; intros; discriminate..].
  destruct (path_dec (key_parts q) (key_parts k)) as [E|E]; [exists (rows ++ l); apply appended_here; assumption|].
  apply O. intros q' rows' [= -> ->]. exact E.
Qed.

(** ** Metadata *)
Lemma step_meta e root k : ~ erases e k -> ~ saves e k -> hdf_load_metadata (fst (hdf_step e root)) k = hdf_load_metadata root k.
Proof.
  intros Q S. rewrite !meta_obs, obs_step. unfold erases, saves in *. destruct e as [q rows|q rows|q|q m]; cbn [step_obs].
  - destruct rows as [|x rows]; [reflexivity|]. destruct (path_dec (key_parts q) (key_parts k)) as [E|N]; [reflexivity|].
    destruct (obs root (key_parts k)) as [o|]; [reflexivity|]. destruct (prefixb _ _); reflexivity.
  - destruct rows as [|x rows]; [reflexivity|]. destruct (prefixb (key_parts q) (key_parts k)) eqn:P.
    + exfalso. apply Q. split; [discriminate|]. apply covers_prefix. exact P.
    + destruct (path_dec (key_parts q) (key_parts k)) as [E|N]; [rewrite E, prefixb_refl in P; discriminate|].
      destruct (obs root (key_parts k)) as [o|]; [reflexivity|]. destruct (prefixb (key_parts k) _); reflexivity.
  - destruct (path_dec (key_parts q) []) as [E|N]; [reflexivity|]. destruct (prefixb (key_parts q) (key_parts k)) eqn:P; [|reflexivity].
    exfalso. apply Q. split; [exact N|]. apply covers_prefix. exact P.
  - destruct (path_dec _ _) as [E|N]; [contradiction|reflexivity].
Qed.

Lemma since_meta h k : Forall (fun e => ~ erases e k /\ ~ saves e k) h -> forall root, hdf_load_metadata (hdf_run h root) k = hdf_load_metadata root k.
Proof.
  induction h as [|e h IH]; intros F root; [reflexivity|]. apply Forall_cons_iff in F. destruct F as [[F1 F2] F].
  cbn [hdf_run fold_left]. change (fold_left _ h ?r) with (hdf_run h r). rewrite IH by exact F. apply step_meta; assumption.
Qed.

Lemma after_save h1 q k m h2 root : same_key q k -> present (hdf_run h1 root) k -> Forall (fun e => ~ erases e k /\ ~ saves e k) h2 ->
  hdf_load_metadata (hdf_run (h1 ++ Save q m :: h2) root) k = Ok m.
Proof.
  intros S P F. rewrite run_app. cbn [hdf_run fold_left]. change (fold_left _ h2 ?r) with (hdf_run h2 r).
  change (fold_left _ h1 ?r) with (hdf_run h1 r). rewrite since_meta by exact F. rewrite meta_obs, obs_step. cbn [step_obs].
  apply present_obs in P. destruct (path_dec (key_parts q) (key_parts k)) as [E|E]; [|contradiction].
  destruct (obs (hdf_run h1 root) (key_parts k)) as [o|]; [reflexivity|contradiction].
Qed.

Lemma after_erase_meta h1 e k h2 root : erases e k -> Forall (fun e => ~ erases e k /\ ~ saves e k) h2 ->
  hdf_load_metadata (hdf_run (h1 ++ e :: h2) root) k = Err AttributeError.
Proof.
  intros D F. rewrite run_app. cbn [hdf_run fold_left]. change (fold_left _ h2 ?r) with (hdf_run h2 r). rewrite since_meta by exact F.
  rewrite meta_obs, obs_step. destruct e as [q rows|q rows|q|q m]; cbn [erases step_obs] in *; try contradiction.
  - destruct D as [N C]. destruct rows as [|x rows]; [contradiction|]. apply covers_prefix in C. rewrite C. destruct (path_dec _ _); reflexivity.
  - destruct D as [N C]. destruct (path_dec (key_parts q) []) as [E|E]; [contradiction|]. apply covers_prefix in C. rewrite C. reflexivity.
Qed.

(** ** What is there *)
Lemma makes_prefix e k : makes e k <-> match e with Append q rows | Put q rows => rows <> [] /\ prefixb (key_parts k) (key_parts q) = true | _ => False end.
Proof. destruct e; cbn [makes]; rewrite ?covers_prefix; reflexivity. Qed.

Lemma step_present e root k : present (fst (hdf_step e root)) k <-> (makes e k \/ (present root k /\ ~ destroys e k)).
Proof.
  rewrite !present_obs, obs_step, makes_prefix. unfold destroys, same_key, is_root. destruct e as [q rows|q rows|q|q m]; cbn [step_obs]; rewrite ?covers_prefix.
  - destruct rows as [|x rows]; [intuition congruence|]. destruct (path_dec (key_parts q) (key_parts k)) as [E|E].
    + rewrite E, prefixb_refl. split; [intros _; left; split; [discriminate|reflexivity]|discriminate].
    + destruct (obs root (key_parts k)) as [o|]; [intuition congruence|]. destruct (prefixb (key_parts k) (key_parts q)); intuition congruence.
  - destruct rows as [|x rows]; [intuition congruence|]. destruct (path_dec (key_parts q) (key_parts k)) as [E|E].
    + rewrite E, prefixb_refl. split; [intros _; left; split; [discriminate|reflexivity]|discriminate].
    + destruct (prefixb (key_parts q) (key_parts k)) eqn:P.
      * split; [congruence|]. intros [[_ K]|[_ K]]; [exfalso; apply E; exact (prefixb_anti _ _ P K)|]. exfalso. apply K. split; [discriminate|]. split; [reflexivity|exact E].
      * destruct (obs root (key_parts k)) as [o|]; [intuition congruence|]. destruct (prefixb (key_parts k) (key_parts q)); intuition congruence.
  - destruct (path_dec (key_parts q) []) as [E|E]; [intuition congruence|]. destruct (prefixb (key_parts q) (key_parts k)); intuition congruence.
  - destruct (path_dec _ _) as [E|E]; [destruct (obs root (key_parts k))|]; intuition congruence.
Qed.

Lemma present_new k : present (new_hdf : node A) k <-> is_root k.
Proof. rewrite present_obs. unfold new_hdf, is_root. rewrite obs_empty. destruct (key_parts k); split; congruence. Qed.

Lemma root_stays e k : is_root k -> ~ destroys e k.
Proof.
  intros R. destruct e as [q rows|q rows|q|q m]; cbn [destroys]; try tauto.
  - intros (_ & [r C] & S). rewrite R in C. symmetry in C. apply app_eq_nil in C. apply S. unfold same_key. rewrite R. apply C.
  - intros (N & [r C]). rewrite R in C. symmetry in C. apply app_eq_nil in C. apply N. apply C.
Qed.

Lemma present_history h k : present (hdf_run h new_hdf) k <->
  is_root k \/ exists h1 e h2, h = h1 ++ e :: h2 /\ makes e k /\ Forall (fun e => ~ destroys e k) h2.
Proof.
  assert (D : forall e : event A, makes e k \/ ~ makes e k).
  { intros e. rewrite makes_prefix. destruct e as [q rows|q rows|q|q m]; try (right; tauto); (destruct rows as [|x rows]; [right; intros [K _]; congruence|]);
    destruct (prefixb (key_parts k) (key_parts q)); [left; split; [discriminate|reflexivity]|right; intros [_ K]; discriminate| left; split; [discriminate|reflexivity]|right; intros [_ K]; discriminate]. }
  induction h as [|e h IH] using rev_ind.
  - cbn [hdf_run fold_left]. rewrite present_new. split; [left; assumption|]. intros [K|(h1 & e & h2 & K & _)]; [exact K|]. destruct h1; discriminate.
  - rewrite run_app. cbn [hdf_run fold_left]. change (fold_left _ h ?r) with (hdf_run h r). rewrite step_present, IH. split.
    + intros [M|[[R|(h1 & e' & h2 & -> & M & F)] N]].
      * right. exists h, e, []. split; [reflexivity|]. split; [exact M|constructor].
      * left. exact R.
      * right. exists h1, e', (h2 ++ [e]). split; [rewrite <- app_assoc; reflexivity|]. split; [exact M|]. apply Forall_app. split; [exact F|]. constructor; [exact N|constructor].
    + intros [R|(h1 & e' & h2 & E & M & F)].
      * right. split; [left; exact R|apply root_stays; exact R].
      * destruct (D e) as [Me|Ne]; [left; exact Me|]. right.
        assert (X : h2 = [] \/ exists h3 x, h2 = h3 ++ [x]) by (destruct h2 as [|y h2] using rev_ind; [left; reflexivity|right; eauto]).
        destruct X as [->|(h3 & x & ->)].
        -- apply app_inj_tail in E. destruct E as [_ <-]. contradiction.
        -- rewrite app_comm_cons, app_assoc in E. apply app_inj_tail in E. destruct E as [-> <-]. apply Forall_app in F. destruct F as [F1 F2].
           split; [|inversion F2; assumption]. right. exists h1, e', h3. split; [reflexivity|]. split; assumption.
Qed.

(** ** Failure *)
Lemma remove_outcome k root : hdf_remove k root = (root, Some KeyError) /\ ~ present root k \/
  hdf_remove k root = (root, Some GenericException) /\ is_root k \/
  snd (hdf_remove k root) = None /\ present root k /\ ~ is_root k.
Proof.
  unfold hdf_remove, present, is_root. destruct (get_node root k) as [c|]; [|left; split; [reflexivity|intros K; apply K; reflexivity]].
  right. destruct (key_parts k); [left; split; reflexivity|right]. split; [reflexivity|]. split; discriminate.
Qed.

(** ** Order *)
Lemma step_obs_ext e see see' q : (forall q, see q = see' q) -> step_obs e see q = step_obs e see' q.
Proof. intros H. destruct e; cbn [step_obs]; rewrite H; reflexivity. Qed.

Lemma commute e e' root k : apart e e' ->
  table_at (hdf_run [e; e'] root) k = table_at (hdf_run [e'; e] root) k /\
  hdf_load_metadata (hdf_run [e; e'] root) k = hdf_load_metadata (hdf_run [e'; e] root) k /\
  (present (hdf_run [e; e'] root) k <-> present (hdf_run [e'; e] root) k).
Proof.
  intros [N1 N2]. assert (E : obs (hdf_run [e; e'] root) (key_parts k) = obs (hdf_run [e'; e] root) (key_parts k)).
  { cbn [hdf_run fold_left]. rewrite !obs_step. rewrite (step_obs_ext e' _ _ _ (obs_step e root)), (step_obs_ext e _ _ _ (obs_step e' root)).
    rewrite covers_prefix in N1, N2. apply Bool.not_true_is_false in N1, N2. set (q := key_parts k). clearbody q. clear k.
    (* the paths above [q] on both sides *)
    assert (U : forall a b, prefixb a b = false -> prefixb b a = false -> prefixb a q = true -> prefixb b q = false /\ prefixb q b = false).
    { intros a b X Y P. split.
      - destruct (prefixb b q) eqn:K; [|reflexivity]. exfalso. apply prefixb_spec in P, K. destruct P as [r ->], K as [s K]. clear -X Y K. revert b X Y K.
        induction a as [|x a IH]; intros [|y b] X Y K; try discriminate. cbn [prefixb List.app] in *. injection K as -> K. rewrite str_eqb_refl in X, Y. exact (IH b X Y K).
      - destruct (prefixb q b) eqn:K; [|reflexivity]. rewrite (prefixb_trans _ _ _ P K) in X. discriminate. }
    pose proof (U _ _ N1 N2) as U1. pose proof (U _ _ N2 N1) as U2. clear U. 
    assert (R1 : key_parts (event_key e) <> []) by (intros K; rewrite K in N1; discriminate).
    assert (R2 : key_parts (event_key e') <> []) by (intros K; rewrite K in N2; discriminate).
    set (p := key_parts (event_key e)) in *. set (p' := key_parts (event_key e')) in *.
    assert (V1 : p = q -> prefixb p q = true) by (intros ->; apply prefixb_refl). assert (V2 : p' = q -> prefixb p' q = true) by (intros ->; apply prefixb_refl).
    assert (W1 : p = q -> prefixb q p = true) by (intros ->; apply prefixb_refl). assert (W2 : p' = q -> prefixb q p' = true) by (intros ->; apply prefixb_refl).
    destruct e as [k1 r1|k1 r1|k1|k1 m1]; destruct e' as [k2 r2|k2 r2|k2|k2 m2]; cbn [event_key] in p, p'; subst p p'; cbn [step_obs];
      try (destruct r1 as [|x1 r1]); try (destruct r2 as [|x2 r2]); try reflexivity;
      destruct (path_dec (key_parts k1) []) as [|_]; try contradiction; destruct (path_dec (key_parts k2) []) as [|_]; try contradiction;
      destruct (path_dec (key_parts k1) q) as [D1|D1]; destruct (path_dec (key_parts k2) q) as [D2|D2];
      try (exfalso; destruct (U1 (V1 D1)) as [X _]; rewrite (V2 D2) in X; discriminate);
      try (destruct (U1 (V1 D1)) as [X1 Y1]; rewrite ?X1, ?Y1); try (destruct (U2 (V2 D2)) as [X2 Y2]; rewrite ?X2, ?Y2);
      destruct (prefixb (key_parts k1) q) eqn:P1; destruct (prefixb (key_parts k2) q) eqn:P2;
      try (destruct (U1 eq_refl) as [X3 Y3]; rewrite ?Y3; try discriminate); try (destruct (U2 eq_refl) as [X4 Y4]; rewrite ?Y4; try discriminate);
      destruct (obs root q) as [o|]; cbn [or_new fst snd]; try reflexivity;
      destruct (prefixb q (key_parts k1)); destruct (prefixb q (key_parts k2)); cbn [or_new fst snd]; try reflexivity. }
  rewrite !table_obs, !meta_obs, !present_obs, E. split; [reflexivity|]. split; reflexivity.
Qed.

End Proofs.
