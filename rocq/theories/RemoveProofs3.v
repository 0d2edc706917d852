(** Further proofs about histories of an HDF5 file. *)
From Coq Require Import Ascii String.
From Verif Require Import Base TimeFrameModel StoreModel StoreSpec KeyModel KeySpec KeyProofs ConvModel ConvSpec ConvProofs ConvProofs2 ConvProofs3 RemoveModel RemoveSpec RemoveProofs.
Import List.
Open Scope list_scope.
Open Scope nat_scope.

Section Proofs.
Context {A : Type}.
Implicit Types (n c root : node A) (e : event A) (h : list (event A)).

Lemma load_table cs k (rows : list (sample A)) root : table_at root k = Some rows -> fits cs rows ->
  exists t, hdf_load_key tf_cleared cs root k = ([mkChunk rows None t], None).
Proof.
  intros T F. unfold table_at, hdf_load_key in *. destruct (get_node root k) as [n|]; [|discriminate]. rewrite T. apply load_single. exact F.
Qed.

Lemma load_gone cs k root : table_at root k = None -> exists x, hdf_load_key tf_cleared cs root k = ([], Some x) /\ (x = KeyError \/ x = TypeError).
Proof.
  intros T. unfold table_at, hdf_load_key in *. destruct (get_node root k) as [n|]; [rewrite T|]; eauto.
Qed.

Lemma load_after_put cs h1 q k rows h2 l root : same_key q k -> rows <> [] -> Forall (fun e => ~ erases e k) h2 -> appended k h2 l -> fits cs (rows ++ l) ->
  exists t, hdf_load_key tf_cleared cs (hdf_run (h1 ++ Put q rows :: h2) root) k = ([mkChunk (rows ++ l) None t], None).
Proof. intros S N F K Fit. apply load_table; [|exact Fit]. apply after_put; assumption. Qed.

Lemma load_after_erase cs h1 e k h2 root : destroys e k -> Forall (fun e => ~ erases e k) h2 -> appended k h2 [] ->
  exists x, hdf_load_key tf_cleared cs (hdf_run (h1 ++ e :: h2) root) k = ([], Some x) /\ (x = KeyError \/ x = TypeError).
Proof. intros D F K. apply load_gone. rewrite (after_erase h1 e k h2 [] root D F K). reflexivity. Qed.

(** ** Listing *)
Lemma child_listed s (l : list (str * node A)) : In s (map fst l) <-> child s l <> None.
Proof.
  induction l as [|[a x] l IH]; cbn [map fst child In]; [intuition congruence|]. destruct (str_eqb s a) eqn:E.
  - apply str_eqb_spec in E. subst a. split; [discriminate|left; reflexivity].
  - rewrite <- IH. split; [intros [->|K]; [rewrite str_eqb_refl in E; discriminate|exact K]|right; assumption].
Qed.

Lemma listing root k names k' s : hdf_elements_below root k = Ok names -> key_parts k' = key_parts k ++ [s] -> (In s names <-> present root k').
Proof.
  intros E P. unfold present, get_node. rewrite P. unfold hdf_elements_below in E.
  assert (X : (if str_eqb k [slash] || str_eqb k [] then Some root else get_node root k) = find_node root (key_parts k)).
  { destruct (str_eqb k [slash]) eqn:E1; [apply str_eqb_spec in E1; subst k; reflexivity|]. destruct (str_eqb k []) eqn:E2; [apply str_eqb_spec in E2; subst k; reflexivity|]. reflexivity. }
  rewrite X in E. clear X P. set (p := key_parts k) in *. clearbody p. revert root E.
  induction p as [|t p IH]; intros root E; cbn [find_node List.app] in *.
  - injection E as <-. rewrite child_listed. destruct (child s (n_children root)); split; congruence.
  - destruct (child t (n_children root)) as [c|]; [|discriminate]. apply IH. exact E.
Qed.

(** ** Undoing an append *)
Lemma undo k q rows root k' : same_key q k -> ~ present root k -> ~ is_root k -> 
  table_at (hdf_run [Append k rows; Remove q] root) k' = table_at root k' /\
  hdf_load_metadata (hdf_run [Append k rows; Remove q] root) k' = hdf_load_metadata root k'.
Proof.
  intros S N R.
  assert (E : or_new (obs (hdf_run [Append k rows; Remove q] root) (key_parts k')) = or_new (obs root (key_parts k'))).
  { cbn [hdf_run fold_left]. rewrite obs_step. cbn [step_obs]. unfold same_key in S. rewrite S. unfold is_root in R. destruct (path_dec (key_parts k) []) as [X|_]; [contradiction|].
    rewrite present_obs in N. assert (N' : obs root (key_parts k) = None) by (destruct (obs root (key_parts k)); [exfalso; apply N; discriminate|reflexivity]).
    destruct (prefixb (key_parts k) (key_parts k')) eqn:P; [rewrite (obs_none_prefix _ _ _ N' P); reflexivity|]. rewrite obs_step. cbn [step_obs]. destruct rows as [|x rows]; [reflexivity|].
    destruct (path_dec (key_parts k) (key_parts k')) as [X|X]; [rewrite X, prefixb_refl in P; discriminate|]. destruct (obs root (key_parts k')) as [o|]; [reflexivity|]. destruct (prefixb (key_parts k') (key_parts k)); reflexivity. }
  rewrite !table_obs, !meta_obs, E. split; reflexivity.
Qed.

(** The groups above stay. *)
Lemma undo_groups k q rows root k' : same_key q k -> rows <> [] -> covers k' k -> ~ same_key k' k -> present (hdf_run [Append k rows; Remove q] root) k'.
Proof.
  intros S N C D. cbn [hdf_run fold_left]. apply step_present. right. split.
  - apply step_present. left. split; assumption.
  - intros [_ K]. apply D. unfold same_key in *. rewrite covers_prefix in *. rewrite S in K. apply prefixb_anti; assumption.
Qed.

End Proofs.
