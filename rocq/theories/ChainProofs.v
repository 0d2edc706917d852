(** Merging metadata. *)
From Coq Require Import Lia.
From Verif Require Import Base TimeFrameModel StoreModel EnergyModel PipelineModel PipelineSpec PipelineProofs ChainModel ChainSpec.
Import List. Open Scope list_scope. Open Scope nat_scope.

Lemma entry_lookup k d : entry k d = lookup_key k d.
Proof.
  induction d as [|[k' v] r IH]; cbn; [reflexivity|].
  destruct (Nat.eq_dec k k') as [->|N]; [now rewrite Nat.eqb_refl|].
  apply Nat.eqb_neq in N. now rewrite N.
Qed.

Lemma lookup_set k v d j : lookup_key j (set_key k v d) = if Nat.eqb j k then Some v else lookup_key j d.
Proof.
  induction d as [|[k' w] r IH]; cbn.
  - destruct (Nat.eqb j k); reflexivity.
  - destruct (Nat.eqb k k') eqn:E.
    + apply Nat.eqb_eq in E as ->. cbn. destruct (Nat.eqb j k'); reflexivity.
    + cbn. rewrite IH. destruct (Nat.eqb j k') eqn:F; [|reflexivity].
      apply Nat.eqb_eq in F as ->. now rewrite Nat.eqb_sym, E.
Qed.

Lemma set_keys k v d : forall j, In j (map fst (set_key k v d)) <-> j = k \/ In j (map fst d).
Proof.
  induction d as [|[k' w] r IH]; intros j; cbn; [intuition|].
  destruct (Nat.eqb k k') eqn:E.
  - apply Nat.eqb_eq in E as ->. cbn. intuition.
  - cbn. rewrite IH. intuition.
Qed.

Lemma set_nodup k v d : NoDup (map fst d) -> NoDup (map fst (set_key k v d)).
Proof.
  induction d as [|[k' w] r IH]; cbn; intros N.
  - constructor; [intros []|constructor].
  - apply NoDup_cons_iff in N as [N1 N2]. destruct (Nat.eqb k k') eqn:E.
    + apply Nat.eqb_eq in E as ->. cbn. now constructor.
    + cbn. constructor; [|now apply IH]. rewrite set_keys. intros [F|F]; [|easy].
      apply Nat.eqb_neq in E. congruence.
Qed.

Lemma in_lookup k v d : NoDup (map fst d) -> In (k, v) d -> lookup_key k d = Some v.
Proof.
  intros N I. destruct (lookup_key k d) as [w|] eqn:L.
  - apply lookup_in in L. f_equal. now apply (in_unique k d).
  - now apply (lookup_none k d L v) in I.
Qed.

Lemma follow_cons k q d : follow (k :: q) (Dict d) = match lookup_key k d with Some v => follow q v | None => None end.
Proof. cbn. now rewrite entry_lookup. Qed.

Section External.
Variable join : nat -> nat -> nat.
Variable clash : meta -> meta -> res meta.

Definition go : list (key * meta) -> list (key * meta) -> res (list (key * meta)) :=
  fix go (items d : list (key * meta)) : res (list (key * meta)) :=
    match items with
    | [] => Ok d
    | (k, v) :: rest =>
        do v' <- match lookup_key k d with None => Ok v | Some w => merged join clash w v end;
        go rest (set_key k v' d)
    end.

Lemma merged_dicts d items : merged join clash (Dict d) (Dict items) = do d' <- go items d; Ok (Dict d').
Proof. reflexivity. Qed.
Lemma go_cons k v rest d : go ((k, v) :: rest) d =
  do v' <- match lookup_key k d with None => Ok v | Some w => merged join clash w v end; go rest (set_key k v' d).
Proof. reflexivity. Qed.

Lemma go_spec items : forall d, NoDup (map fst items) ->
  (forall k v w, In (k, v) items -> lookup_key k d = Some w -> exists c, merged join clash w v = Ok c) ->
  exists d', go items d = Ok d' /\
    (forall k, lookup_key k d' = match lookup_key k items with
                                 | None => lookup_key k d
                                 | Some v => match lookup_key k d with
                                             | None => Some v
                                             | Some w => match merged join clash w v with Ok c => Some c | Err _ => None end
                                             end
                                 end) /\
    (NoDup (map fst d) -> NoDup (map fst d')).
Proof.
  induction items as [|[k v] rest IH]; intros d N C.
  - exists d. repeat split; auto.
  - cbn [map fst] in N. apply NoDup_cons_iff in N as [N1 N2].
    assert (V : exists v', match lookup_key k d with None => Ok v | Some w => merged join clash w v end = Ok v').
    { destruct (lookup_key k d) as [w|] eqn:L; [|now exists v]. apply (C k v w); [now left|exact L]. }
    destruct V as [v' V].
    destruct (IH (set_key k v' d)) as (d' & G & L & K).
    + exact N2.
    + intros j x w I E. rewrite lookup_set in E. destruct (Nat.eqb j k) eqn:F.
      * apply Nat.eqb_eq in F as ->. exfalso. apply N1. now apply (in_map fst) in I.
      * apply (C j x w); [now right|exact E].
    + exists d'. split; [|split].
      * rewrite go_cons, V. exact G.
      * intros j. rewrite L, lookup_set. cbn [lookup_key]. destruct (Nat.eqb j k) eqn:F; [|reflexivity].
        apply Nat.eqb_eq in F as ->. destruct (lookup_key k rest) as [x|] eqn:R.
        { exfalso. apply N1. apply lookup_in in R. now apply (in_map fst) in R. }
        destruct (lookup_key k d) as [w|]; [now rewrite V|congruence].
      * intros ND. apply K. now apply set_nodup.
Qed.

(** The sort of value expected at a path: a dictionary ([true]), an atom or anything. *)
Definition conf (slot : list key -> option bool) (m : meta) : Prop :=
  forall p v, follow p m = Some v -> match slot p with Some true => is_dict v | Some false => is_atom v | None => True end.
Definition shared (slot : list key -> option bool) (a b : meta) : Prop :=
  forall p, present p a -> present p b -> slot p <> None.

Record joined (slot : list key -> option bool) (old new c : meta) : Prop := mkJoined {
  j_wf : well_formed c;
  j_conf : conf slot c;
  j_old : forall p, follow p new = None -> follow p c = follow p old;
  j_new : forall p, follow p old = None -> follow p c = follow p new;
  j_both : forall p a b, follow p old = Some (Atom a) -> follow p new = Some (Atom b) -> follow p c = Some (Atom (join a b));
  j_present : forall p, present p old -> present p new -> present p c }.

Lemma conf_sub slot k d v : conf slot (Dict d) -> lookup_key k d = Some v -> conf (fun q => slot (k :: q)) v.
Proof. intros C L p w F. apply (C (k :: p) w). now rewrite follow_cons, L. Qed.
Lemma shared_sub slot k d e v w : shared slot (Dict d) (Dict e) -> lookup_key k d = Some v -> lookup_key k e = Some w ->
  shared (fun q => slot (k :: q)) v w.
Proof.
  intros S L M p [x X] [y Y]. apply (S (k :: p)); [exists x|exists y]; rewrite follow_cons; [now rewrite L|now rewrite M].
Qed.

Lemma merged_ok new : forall slot old, well_formed old -> well_formed new -> conf slot old -> conf slot new -> shared slot old new ->
  exists c, merged join clash old new = Ok c /\ joined slot old new c.
Proof.
  induction new as [|n|items IH] using meta_induction; intros slot old W1 W2 C1 C2 SH.
  - exfalso. pose proof (SH [] (ex_intro _ old eq_refl) (ex_intro _ AnyValue eq_refl)) as N.
    specialize (C2 [] AnyValue eq_refl). destruct (slot []) as [[|]|]; [destruct C2; discriminate|destruct C2; discriminate|easy].
  - pose proof (SH [] (ex_intro _ old eq_refl) (ex_intro _ (Atom n) eq_refl)) as N.
    pose proof (C1 [] old eq_refl) as C1'. specialize (C2 [] (Atom n) eq_refl).
    destruct (slot []) as [[|]|] eqn:E; [destruct C2; discriminate| |easy].
    destruct C1' as [a ->]. cbn. exists (Atom (join a n)). split; [reflexivity|]. constructor.
    + constructor.
    + intros [|k p] v F; [|discriminate]. injection F as <-. rewrite E. now exists (join a n).
    + intros [|k p] F; [discriminate|reflexivity].
    + intros [|k p] F; [discriminate|reflexivity].
    + intros [|k p] a' b' [= <-] [= <-]. reflexivity.
    + intros [|k p]; [intros _ _; now eexists|intros [x X]; discriminate].
  - pose proof (SH [] (ex_intro _ old eq_refl) (ex_intro _ (Dict items) eq_refl)) as N.
    pose proof (C1 [] old eq_refl) as C1'. pose proof (C2 [] (Dict items) eq_refl) as C2'.
    destruct (slot []) as [[|]|] eqn:E; [|destruct C2'; discriminate|easy].
    destruct C1' as [d ->]. rewrite merged_dicts.
    pose proof (wf_keys _ W1) as K1. pose proof (wf_keys _ W2) as K2.
    assert (SUB : forall k v w, lookup_key k items = Some v -> lookup_key k d = Some w ->
      exists c, merged join clash w v = Ok c /\ joined (fun q => slot (k :: q)) w v c).
    { intros k v w L M. rewrite Forall_forall in IH. apply (IH (k, v)); cbn [snd].
      - now apply lookup_in.
      - apply (wf_sub d k); [exact W1|now apply lookup_in].
      - apply (wf_sub items k); [exact W2|now apply lookup_in].
      - now apply (conf_sub _ _ d).
      - now apply (conf_sub _ _ items).
      - now apply (shared_sub _ _ d items). }
    destruct (go_spec items d K2) as (d' & G & L & K).
    { intros k v w I M. destruct (SUB k v w) as (c & X & _); [now apply in_lookup|exact M|now exists c]. }
    rewrite G. cbn [bind]. exists (Dict d'). split; [reflexivity|].
    assert (CASES : forall k, (lookup_key k items = None /\ lookup_key k d' = lookup_key k d) \/
      (lookup_key k d = None /\ lookup_key k d' = lookup_key k items) \/
      exists v w c, lookup_key k items = Some v /\ lookup_key k d = Some w /\ lookup_key k d' = Some c /\ joined (fun q => slot (k :: q)) w v c).
    { intros k. rewrite L. destruct (lookup_key k items) as [v|] eqn:LI; [|now left].
      destruct (lookup_key k d) as [w|] eqn:LD; [|now right; left].
      right; right. destruct (SUB k v w LI LD) as (c & X & J). exists v, w, c. now rewrite X. }
    constructor.
    + constructor; [now apply K|]. intros k v I. apply in_lookup in I; [|now apply K].
      destruct (CASES k) as [[_ Q]|[[_ Q]|(x & w & c & _ & _ & Q & J)]]; rewrite Q in I.
      * apply (wf_sub d k); [exact W1|now apply lookup_in].
      * apply (wf_sub items k); [exact W2|now apply lookup_in].
      * injection I as <-. apply J.
    + intros [|k p] v F.
      * injection F as <-. rewrite E. now exists d'.
      * rewrite follow_cons in F. destruct (CASES k) as [[_ Q]|[[_ Q]|(x & w & c & _ & _ & Q & J)]]; rewrite Q in F.
        -- apply (C1 (k :: p)). now rewrite follow_cons.
        -- apply (C2 (k :: p)). now rewrite follow_cons.
        -- apply (j_conf _ _ _ _ J p v F).
    + intros [|k p] F; [discriminate|]. rewrite !follow_cons in *.
      destruct (CASES k) as [[_ Q]|[[Q1 Q]|(x & w & c & Q1 & Q2 & Q & J)]]; rewrite Q; [reflexivity| |].
      * now rewrite Q1.
      * rewrite Q1 in F. rewrite Q2. now apply (j_old _ _ _ _ J).
    + intros [|k p] F; [discriminate|]. rewrite !follow_cons in *.
      destruct (CASES k) as [[Q1 Q]|[[_ Q]|(x & w & c & Q1 & Q2 & Q & J)]]; rewrite Q; [|reflexivity|].
      * now rewrite Q1.
      * rewrite Q1. rewrite Q2 in F. now apply (j_new _ _ _ _ J).
    + intros [|k p] a b F1 F2; [discriminate|]. rewrite !follow_cons in *.
      destruct (CASES k) as [[Q1 Q]|[[Q1 Q]|(x & w & c & Q1 & Q2 & Q & J)]].
      * now rewrite Q1 in F2.
      * now rewrite Q1 in F1.
      * rewrite Q. rewrite Q1 in F2. rewrite Q2 in F1. now apply (j_both _ _ _ _ J).
    + intros [|k p] [x1 F1] [x2 F2]; [now eexists|]. unfold present. rewrite !follow_cons in *.
      destruct (CASES k) as [[Q1 Q]|[[Q1 Q]|(x & w & c & Q1 & Q2 & Q & J)]].
      * now rewrite Q1 in F2.
      * now rewrite Q1 in F1.
      * rewrite Q. rewrite Q1 in F2. rewrite Q2 in F1. apply (j_present _ _ _ _ J); [now exists x1|now exists x2].
Qed.

Lemma present_joined slot old new c : joined slot old new c -> forall p, present p c <-> present p old \/ present p new.
Proof.
  intros J p. destruct (follow p old) as [x|] eqn:O; destruct (follow p new) as [y|] eqn:N; unfold present; rewrite O, N.
  - split; [left; now exists x|intros _]. apply (j_present _ _ _ _ J); [now exists x|now exists y].
  - rewrite (j_old _ _ _ _ J p N), O. intuition. match goal with H : exists v, None = Some v |- _ => destruct H; discriminate end.
  - rewrite (j_new _ _ _ _ J p O), N. intuition. match goal with H : exists v, None = Some v |- _ => destruct H; discriminate end.
  - rewrite (j_old _ _ _ _ J p N), O. intuition.
Qed.
End External.
