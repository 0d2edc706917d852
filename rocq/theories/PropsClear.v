(** C105: clearing the cache of statistics. *)
From Coq Require Import Ascii String Lia.
From Verif Require Import Base TimeFrameModel StoreModel KeyModel ConvModel ConvSpec RemoveModel RemoveSpec CacheModel CacheSpec ClearModel ClearSpec ClearProofs ClearProofs2.
Import List.
Open Scope list_scope.

(** In any history of statistics stored and caches cleared, what is cached for a meter is what
    was stored since [clear_cache()] of the meter, of a group with it at any depth, or of
    a data set with it, ... *)
Theorem C105_history_partial : forall (A : Type) h1 (o : op A) h2 m s l (root : node A),
  Forall proper (o :: h2) -> proper_id m -> stat_name s -> clears o m -> Forall (fun o => ~ clears o m) h2 -> stored m s h2 l ->
  get_cached_stat m s (run (h1 ++ o :: h2) root) = l.
Proof. exact @history_ok. Qed.
Print Assumptions C105_history_partial.

(** ... or, if never cleared, all that was stored. *)
Theorem C105_quiet : forall (A : Type) (h : list (op A)) m s l, stored m s h l -> Forall proper h -> proper_id m -> stat_name s ->
  Forall (fun o => ~ clears o m) h -> forall root, get_cached_stat m s (run h root) = get_cached_stat m s root ++ l.
Proof. exact @quiet_ok. Qed.
Print Assumptions C105_quiet.

(** The two cases cover every history: there are always such rows. *)
Theorem C105_stored : forall (A : Type) m s (h : list (op A)), exists l, stored m s h l.
Proof. exact @stored_exists. Qed.
Print Assumptions C105_stored.
Example C105_example_history :
  let s := lit "total_energy" in let m := mid 1 3 "REDD" in
  let h2 := [Store m s [(5, 1)]; Clear (Meter (mid 1 33 "REDD")); Store (mid 2 3 "REDD") s [(6, 2)]; Store m s [(7, 3)]]%Z in
  Forall proper (ClearAll [house] :: h2) /\ proper_id m /\ stat_name s /\ clears (ClearAll [house] : op Z) m /\ Forall (fun o => ~ clears o m) h2 /\
  stored m s h2 [(5, 1); (7, 3)]%Z /\
  get_cached_stat m s (run ([Store m s [(1, 9)]; Store m s [(2, 8)]]%Z ++ ClearAll [house] :: h2) new_hdf) = [(5, 1); (7, 3)]%Z.
Proof.
  cbv zeta. assert (P : forall b n d, (0 <= b)%Z -> (0 <= n)%Z -> proper_id (mid b n d)) by (intros; split; cbn; assumption).
  assert (PS : forall b n d rows, (0 <= b)%Z -> (0 <= n)%Z -> @proper Z (Store (mid b n d) (lit "total_energy") rows)).
  { intros. split; [intros m []|]. split; [now apply P|exact energy_name]. }
  split; [constructor; [exact house_proper|]; constructor; [apply PS; lia|]; constructor; [split; [intros m H; cbn in H; inversion H; apply P; lia|exact I]|]; constructor; [apply PS; lia|]; constructor; [apply PS; lia|constructor]|].
  split; [apply P; lia|]. split; [exact energy_name|].
  split. { exists (mid 1 3 "REDD"). split; [|split; reflexivity]. exists house. split; [now left|]. apply meters_enabled. cbn. tauto. }
  split. { repeat constructor; intros (m & T & [E1 E2]); cbn in T; try contradiction. inversion T. subst m. discriminate. }
  split. { apply (stored_here _ _ _ [(5, 1)%Z]); [split; reflexivity|]. apply stored_other; [discriminate|]. apply stored_other; [intros m' r E; injection E as <- _; intros [K _]; discriminate|].
    apply (stored_here _ _ _ [(7, 3)%Z] [] []); [split; reflexivity|constructor]. }
  vm_compute. reflexivity.
Qed.

(** Clearing never fails, even if nothing is cached; to clear again changes nothing. *)
Theorem C105_no_error : forall (A : Type) (o : op A) root, snd (step o root) = None.
Proof. exact @steps_fine. Qed.
Print Assumptions C105_no_error.
Theorem C105_twice : forall (A : Type) (o : op A) root, (forall m s rows, o <> Store m s rows) -> step o (fst (step o root)) = step o root.
Proof. exact @twice_ok. Qed.
Print Assumptions C105_twice.

(** Nothing else in the file of the cache changes; and only which meters are in use
    counts, not their order or how they are grouped. *)
Theorem C105_others : forall (A : Type) (o : op A) k root, (forall m, targets o m -> ~ covers (key_for_cached_stat m []) k) ->
  (forall m s rows, o <> Store m s rows) ->
  table_at (fst (step o root)) k = table_at root k /\ hdf_load_metadata (fst (step o root)) k = hdf_load_metadata root k.
Proof. exact @others_ok. Qed.
Print Assumptions C105_others.
Theorem C105_grouping : forall (A : Type) (o o' : op A) root k, (forall m s rows, o <> Store m s rows) -> (forall m s rows, o' <> Store m s rows) ->
  (forall m, targets o m <-> targets o' m) -> table_at (fst (step o root)) k = table_at (fst (step o' root)) k.
Proof. exact @same_targets. Qed.
Print Assumptions C105_grouping.
Example C105_example_grouping : forall m, targets (ClearAll [house] : op Z) m <-> targets (ClearAll [Meter (mid 1 3 "REDD"); Group [Meter (mid 1 2 "REDD"); Meter (mid 1 1 "REDD")] []] : op Z) m.
Proof. intros m. rewrite <- !in_targets. cbn. tauto. Qed.

(** The statistics of disabled meters stay cached. *)
Theorem C105_disabled_refuted : exists x m (rows : list (sample Z)), belongs x m /\ proper_id m /\ rows <> [] /\
  get_cached_stat m (lit "total_energy") (run [Store m (lit "total_energy") rows; ClearAll [x]] new_hdf) = rows.
Proof. exact disabled_stay. Qed.
Print Assumptions C105_disabled_refuted.

(** The statistics of a meter of another data set with the same building and number are
    lost. *)
Theorem C105_dataset_refuted : exists x m (rows : list (sample Z)), ~ belongs x m /\ proper_id m /\ rows <> [] /\
  get_cached_stat m (lit "total_energy") (run [Store m (lit "total_energy") rows] new_hdf) = rows /\
  get_cached_stat m (lit "total_energy") (run [Store m (lit "total_energy") rows; ClearAll [x]] new_hdf) = [].
Proof. exact other_dataset. Qed.
Print Assumptions C105_dataset_refuted.
