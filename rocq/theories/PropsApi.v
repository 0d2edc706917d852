(** C42, C48, C49: data alignment, attribution of predictions, chunk-wise training. *)
From Verif Require Import Base ApiModel ApiSpec ApiProofs.
Open Scope Z_scope.

(** ** C42 *)

(** [dropna] returns the rows, unchanged and in order, at exactly the timestamps
    where mains and all appliances have complete rows. *)
Theorem C42_dropna : forall mains appliances, rising (index mains) -> exists ix m' new seen,
  dropna mains appliances = Ok (m', new, seen) /\
  rising ix /\ (forall t, In t ix <-> usable mains appliances t) /\
  restricted mains ix m' /\ Forall2 (fun a a' => restricted a ix a') appliances new /\
  (forall r, In r m' -> ~ In None (snd r)) /\ Forall (fun a' => forall r, In r a' -> ~ In None (snd r)) new.
Proof.
  intros mains appliances H. destruct (dropna_spec mains appliances H) as (ix & m' & new & E & R). exists ix, m', new, (map dropna_frame appliances). split; [exact E|exact R].
Qed.
Print Assumptions C42_dropna.

(** The artificial aggregate of the result is, at every timestamp, the sum of
    the appliances' readings there. *)
Theorem C42_aggregate : forall mains appliances m' new seen, rising (index mains) ->
  appliances <> [] -> Forall one_column appliances ->
  dropna mains appliances = Ok (m', new, seen) ->
  exists f, artificial_aggregate new = Ok f /\ index f = index m' /\
    forall t, In t (index f) -> exists vs, Forall2 (fun a v => In (t, [Some v]) a) appliances vs /\ row_at f t = Some (t, [Some (sumZ vs)]).
Proof. exact aggregate_after_dropna. Qed.
Print Assumptions C42_aggregate.

Definition ex_mains : frame := [(1, [Some 10]); (2, [Some 20]); (3, [None]); (4, [Some 40]); (6, [Some 60])].
Definition ex_app1 : frame := [(1, [Some 1]); (2, [Some 2]); (3, [Some 3]); (4, [Some 4])].
Definition ex_app2 : frame := [(2, [Some 5]); (3, [Some 6]); (4, [Some 7]); (5, [Some 8]); (6, [None])].
Example C42_example : rising (index ex_mains) /\ Forall one_column [ex_app1; ex_app2] /\
  dropna ex_mains [ex_app1; ex_app2] = Ok ([(2, [Some 20]); (4, [Some 40])], [[(2, [Some 2]); (4, [Some 4])]; [(2, [Some 5]); (4, [Some 7])]],
    [ex_app1; [(2, [Some 5]); (3, [Some 6]); (4, [Some 7]); (5, [Some 8])]]) /\
  artificial_aggregate [[(2, [Some 2]); (4, [Some 4])]; [(2, [Some 5]); (4, [Some 7])]] = Ok [(2, [Some 7]); (4, [Some 11])].
Proof.
  split; [cbn; intuition lia|]. split; [|split; reflexivity].
  constructor; [|constructor; [|constructor]]; intros r Hr; cbn in Hr; intuition (subst r; reflexivity).
Qed.

(** Without dropping missing values the aggregate of appliances that miss each
    other's timestamps has missing values where readings exist. *)
Theorem C42_aggregate_without_dropna_refuted : exists appliances f t v,
  artificial_aggregate appliances = Ok f /\ In (t, [Some v]) (hd [] appliances) /\ row_at f t = Some (t, [None]).
Proof. exists [[(1, [Some 5]); (2, [Some 6])]; [(2, [Some 7])]]. do 3 eexists. split; [reflexivity|]. split; [left; reflexivity|reflexivity]. Qed.
Print Assumptions C42_aggregate_without_dropna_refuted.

(** ** C48 *)

(** With missing values dropped, [predict] compares, at each timestamp, the true
    readings of all appliances at that timestamp with the values the classifier
    computed from the mains row of that timestamp; padding is cut off. *)
Theorem C48_attribution : forall mains appliances m' new seen (g : list (Z * cells -> Z)) pad,
  rising (index mains) -> Forall (fun a => rising (index a)) appliances -> appliances <> [] -> Forall one_column appliances ->
  dropna mains appliances = Ok (m', new, seen) ->
  exists gt pred, predict (map column new) (map (fun f => map f m' ++ pad) g) = Ok (gt, pred) /\
    map fst gt = map fst m' /\
    (forall t vs, In (t, vs) gt -> Forall2 (fun a v => exists x, v = Some x /\ In (t, [Some x]) a) appliances vs) /\
    pred = map (fun f => map (fun r => (fst r, f r)) m') g.
Proof. exact predict_spec. Qed.
Print Assumptions C48_attribution.

(** Without dropping, a value computed for one timestamp is reported for
    another one as soon as an appliance lacks a row. *)
Theorem C48_without_dropna_refuted : exists (mains app : frame) (f : Z * cells -> Z) gt pred t,
  rising (index mains) /\ rising (index app) /\ one_column app /\
  predict [column app] [map f mains] = Ok (gt, pred) /\
  exists p c, In (t, c) mains /\ In (t, p) (hd [] pred) /\ p <> f (t, c).
Proof.
  exists [(1, [Some 10]); (2, [Some 20])], [(2, [Some 5])], (fun r => match snd r with [Some v] => v | _ => 0 end). do 2 eexists. exists 2.
  split; [cbn; intuition lia|]. split; [cbn; intuition|]. split; [intros r [<-|[]]; reflexivity|]. split; [reflexivity|].
  exists 10, [Some 20]. split; [right; left; reflexivity|]. split; [left; reflexivity|]. cbn. lia.
Qed.
Print Assumptions C48_without_dropna_refuted.

(** Too few predictions raise ValueError. *)
Theorem C48_too_few : forall truth values rest, (length values < length (union_index (map (map fst) truth)))%nat ->
  predict truth (values :: rest) = Err ValueError.
Proof.
  intros truth values rest H. unfold predict. cbn [mapM]. unfold series_with. rewrite map_length, firstn_length.
  set (n := length (union_index _)) in *. replace (Nat.eqb (Nat.min n (length values)) n) with false; [reflexivity|]. symmetry. apply Nat.eqb_neq. lia.
Qed.
Print Assumptions C48_too_few.

Example C48_example :
  predict (map column [[(2, [Some 2]); (4, [Some 4])]; [(2, [Some 5]); (4, [Some 7])]]) (map (fun f => map f [(2, [Some 20]); (4, [Some 40])] ++ [0]) [fst; fun r => fst r + 1])
  = Ok ([(2, [Some 2; Some 5]); (4, [Some 4; Some 7])], [[(2, 2); (4, 4)]; [(2, 3); (4, 5)]]).
Proof. reflexivity. Qed.

(** ** C49 *)

(** Every training row of chunk-wise training is usable; if chunks with the same
    number cover the same period, every usable timestamp is trained on. *)
Theorem C49_chunk_wise_partial : forall mains appliances, Forall (fun m => rising (index m)) mains ->
  exists calls, train_chunk_wise mains appliances = Ok calls /\ length calls = length mains /\
    (forall t, (exists call, In call calls /\ In t (index (fst call))) -> usable (concat mains) (map (@concat _) appliances) t) /\
    (aligned mains appliances -> forall t, usable (concat mains) (map (@concat _) appliances) t -> exists call, In call calls /\ In t (index (fst call))).
Proof. exact train_spec. Qed.
Print Assumptions C49_chunk_wise_partial.

(** Chunks are paired by number, so a meter with a gap loses usable data. *)
Theorem C49_misaligned_refuted : exists mains appliances calls t, Forall (fun m => rising (index m)) mains /\
  train_chunk_wise mains appliances = Ok calls /\ usable (concat mains) (map (@concat _) appliances) t /\
  ~ exists call, In call calls /\ In t (index (fst call)).
Proof.
  (* chunks of two rows; the appliance misses the reading at 1 *)
  exists [[(1, [Some 10]); (2, [Some 10])]; [(3, [Some 10]); (4, [Some 10])]], [[[(2, [Some 5]); (3, [Some 5])]; [(4, [Some 5])]]]. do 1 eexists. exists 3.
  split; [repeat constructor; cbn; intuition lia|]. split; [reflexivity|]. split.
  - split; [exists [Some 10]; split; [cbn; auto|intros [H|[]]; discriminate]|]. intros a [<-|[]]. exists [Some 5]. split; [cbn; auto|intros [H|[]]; discriminate].
  - intros (call & Hc & Ht). cbn in Hc. destruct Hc as [<-|[<-|[]]]; cbn in Ht; intuition lia.
Qed.
Print Assumptions C49_misaligned_refuted.

Example C49_example : 
  let mains := [[(1, [Some 10]); (2, [Some 10])]; [(3, [Some 10]); (4, [None])]] in
  let apps := [[[(1, [Some 5]); (2, [Some 5])]; [(3, [Some 5]); (4, [Some 5])]]; [[(2, [Some 6])]; [(3, [Some 6])]]] in
  Forall (fun m => rising (index m)) mains /\ aligned mains apps /\
  train_chunk_wise mains apps = Ok [([(2, [Some 10])], [[(2, [Some 5])]; [(2, [Some 6])]]); ([(3, [Some 10])], [[(3, [Some 5])]; [(3, [Some 6])]])].
Proof.
  cbv zeta. split; [repeat constructor; cbn; intuition lia|]. split; [|reflexivity].
  intros i j chunks t Hc (c & H1 & _) (c' & H2 & _). unfold nth_chunk in *.
  destruct Hc as [<-|[<-|[]]]; destruct i as [|[|[|i]]], j as [|[|[|j]]]; cbn in H1, H2; try tauto;
    repeat match goal with H : _ \/ _ |- _ => destruct H as [H|H] | H : (_, _) = (_, _) |- _ => injection H as ? ?; subst end; try tauto; try lia.
Qed.
