From Coq Require Import Ascii String Lia Bool.
From Verif Require Import Base TimeFrameModel StoreModel KeyModel KeySpec KeyProofs ConvModel ConvSpec ConvProofs RemoveModel RemoveSpec RemoveProofs CacheModel CacheSpec CacheProofs2 ClearModel ClearSpec ClearProofs.
Import List.
Open Scope list_scope.

Lemma alike_dec m m' : {alike m m'} + {~ alike m m'}.
Proof.
  unfold alike. destruct (Z.eq_dec (id_building m) (id_building m')) as [E|E]; [|right; tauto].
  assert (D : forall i j : instance, {i = j} + {i <> j}) by (decide equality; [apply Z.eq_dec|apply list_eq_dec, Z.eq_dec]).
  destruct (D (id_instance m) (id_instance m')); [left|right]; tauto.
Qed.
Section More.
Context {A : Type}.
Theorem stored_exists m s (h : list (op A)) : exists l, stored m s h l.
Proof.
  induction h as [|o h (l & IH)]; [eexists; constructor|]. destruct o as [m' s' rows|x|e].
  - destruct (list_eq_dec Ascii.ascii_dec s' s) as [->|N].
    + destruct (alike_dec m' m) as [L|L]; [eexists; apply stored_here; eauto|]. exists l. apply stored_other; [|exact IH]. intros m0 r0 E. injection E as <- _. exact L.
    + exists l. apply stored_other; [|exact IH]. intros m0 r0 E. injection E as _ E _. congruence.
  - exists l. apply stored_other; [discriminate|exact IH].
  - exists l. apply stored_other; [discriminate|exact IH].
Qed.
Theorem same_targets (o o' : op A) root k : (forall m s rows, o <> Store m s rows) -> (forall m s rows, o' <> Store m s rows) ->
  (forall m, targets o m <-> targets o' m) -> table_at (fst (step o root)) k = table_at (fst (step o' root)) k.
Proof.
  intros H H' T. destruct (step_clear o H root) as (r & E & _ & O). destruct (step_clear o' H' root) as (r' & E' & _ & O'). rewrite E, E'. cbn [fst]. rewrite !table_obs, O, O'.
  replace (hit (targets_of o') (key_parts k)) with (hit (targets_of o) (key_parts k)); [reflexivity|]. apply eq_true_iff_eq. unfold hit. rewrite !existsb_exists.
  split; intros (m & Hm & K); exists m; (split; [|exact K]); apply in_targets, T, in_targets, Hm.
Qed.
End More.

Definition mid (b n : Z) (d : string) : meter_id := mkId (One n) b (lit d).
Definition house : member := Group [Meter (mid 1 1 "REDD"); Group [Meter (mid 1 2 "REDD"); Meter (mid 1 3 "REDD")] []] [Meter (mid 1 4 "REDD")].
Lemma house_proper : @proper Z (ClearAll [house]).
Proof.
  split; [|exact I]. intros m (x & [<-|[]] & H). apply meters_enabled in H. cbn in H. destruct H as [<-|[<-|[<-|[]]]]; split; cbn; lia.
Qed.
Lemma energy_name : stat_name (lit "total_energy").
Proof. split; [discriminate|]. cbn. intuition discriminate. Qed.
Theorem disabled_stay : exists x m (rows : list (sample Z)), belongs x m /\ proper_id m /\ rows <> [] /\
  get_cached_stat m (lit "total_energy") (run [Store m (lit "total_energy") rows; ClearAll [x]] new_hdf) = rows.
Proof.
  exists house, (mid 1 4 "REDD"), [(0%Z, 7%Z)]. split; [apply (belongs_group _ _ (Meter (mid 1 4 "REDD"))); [right; right; now left|constructor]|]. split; [split; cbn; lia|]. split; [discriminate|]. vm_compute. reflexivity.
Qed.
Theorem other_dataset : exists x m (rows : list (sample Z)), ~ belongs x m /\ proper_id m /\ rows <> [] /\
  get_cached_stat m (lit "total_energy") (run [Store m (lit "total_energy") rows] new_hdf) = rows /\
  get_cached_stat m (lit "total_energy") (run [Store m (lit "total_energy") rows; ClearAll [x]] new_hdf) = [].
Proof.
  exists (Meter (mid 1 1 "REDD")), (mid 1 1 "UK-DALE"), [(0%Z, 7%Z)]. split; [intros H; inversion H|]. split; [split; cbn; lia|]. split; [discriminate|]. split; vm_compute; reflexivity.
Qed.
