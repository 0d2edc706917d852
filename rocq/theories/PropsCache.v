(** C22: statistics served from the cache.  C23: the keys of the cache. *)
From Coq Require Import Ascii String Lia QArith.
From Verif Require Import Base TimeFrameModel TimeFrameSpec SortLib StoreModel StoreSpec ResultsModel ResultsSpec EnergyModel KeyModel CacheModel CacheSpec CacheProofs CacheProofs2 CacheProofs3.
Import List. Import ListNotations.
Open Scope list_scope.
Open Scope Z_scope.

(** Any history of total_energy() requests on a meter of an HDF store, each for sections inside the window, gets
    what each of them would get with an empty cache, and no error.  Missing from the full property: sections that reach
    out of the window, sections of more than one chunk, requests for different AC types (all refuted below). *)
Theorem C22_energy_partial : forall rows columns window msp c h,
  (length rows <= c)%nat -> (1 <= c)%nat ->
  Forall (fun q => fst q = [] /\ proper_request (inside window) (snd q)) h ->
  with_cache (hdf_energies rows columns window msp c) h = from_scratch (hdf_energies rows columns window msp c) h /\
  Forall (fun r => exists v, r = Ok v) (with_cache (hdf_energies rows columns window msp c) h).
Proof. exact all_types. Qed.
Print Assumptions C22_energy_partial.

(** The same for a history of total_energy(ac_type=a) requests, if every section asked for has an energy of that type. *)
Theorem C22_one_type_partial : forall rows columns window msp c a h,
  (length rows <= c)%nat -> (1 <= c)%nat ->
  Forall (fun q => fst q = [a] /\ proper_request (inside window) (snd q)) h ->
  (forall t u v, In t (requested h) -> In (u, v) (hdf_energies rows columns window msp c [a] t) -> en_get a v <> None) ->
  with_cache (hdf_energies rows columns window msp c) h = from_scratch (hdf_energies rows columns window msp c) h /\
  Forall (fun r => exists v, r = Ok v) (with_cache (hdf_energies rows columns window msp c) h).
Proof. exact one_type. Qed.
Print Assumptions C22_one_type_partial.

(** Nothing fails on the way: the store and the energies of the chunks are defined for such sections. *)
Theorem C22_no_error : forall rows columns window msp c ac section s e,
  (length rows <= c)%nat -> (1 <= c)%nat -> inside window section -> bounded section s e ->
  snd (hdf_load_section rows window section 0 c) = None /\
  forall ch, In ch (fst (hdf_load_section rows window section 0 c)) ->
  exists v, get_total_energy (columns_for columns ac) (map (fun r => (fst r, pick columns (columns_for columns ac) (snd r))) (c_rows ch)) msp = Ok v.
Proof. exact hdf_no_error. Qed.
Print Assumptions C22_no_error.

(** Dropout rates: for sections delivered whole the answers are the same tables, whatever the AC types, and each has one row
    per section that has a value, with that value. *)
Theorem C22_dropout_partial : forall chunks (ok : tf -> Prop) stat h,
  (forall t, ok t -> is_bounded t) -> (forall ac, whole ok (chunks ac) stat) -> Forall (fun q => proper_request ok (snd q)) h ->
  fst (serve dropout_stat chunks h []) = map (fun q => fst (get_stat dropout_stat (chunks (fst q)) (fst q) (snd q) [])) h /\
  Forall2 (fun q r => exists d, r = Ok d /\ answer stat eq (snd q) d) h (fst (serve dropout_stat chunks h [])).
Proof. exact dropout_history. Qed.
Print Assumptions C22_dropout_partial.

(** A meter with two columns and a sample of [v], [2 v] at each of the times 0, ..., n - 1. *)
Definition demo_rows (n : nat) (v : Z) : list (sample (list (option Z))) := map (fun i => (Z.of_nat i, [Some v; Some (2 * v)])) (seq 0 n).
Definition demo_columns : list column := [(Power, Some Active); (Power, Some Reactive)].
Definition frame (s e : Z) : tf := mkTF (Some s) (Some e) true false false.
Definition all_time : tf := mkTF None None true false false.

Lemma frame_inside s e window : s < e -> (forall i, s <= i < e -> inTF window i) -> inside window (frame s e).
Proof.
  intros L H. split; [exists s, e; repeat split; exact L|]. split; [reflexivity|]. intros i (_ & A & B). apply H. cbn in *. specialize (A s eq_refl). specialize (B e eq_refl). lia.
Qed.
Lemma all_time_in i : inTF all_time i.
Proof. split; [reflexivity|]. split; discriminate. Qed.
Lemma demo_request : proper_request (inside all_time) [frame 0 5; frame 5 10].
Proof.
  split; [constructor; [|constructor; [|constructor]]; (apply frame_inside; [lia|intros; apply all_time_in])|].
  intros j k a b i J K (_ & A1 & A2) (_ & B1 & B2). destruct j as [|[|j]], k as [|[|k]]; cbn in J, K; try reflexivity; try (destruct j; discriminate); try (destruct k; discriminate); injection J as <-; injection K as <-; specialize (A1 _ eq_refl); specialize (A2 _ eq_refl); specialize (B1 _ eq_refl); specialize (B2 _ eq_refl); lia.
Qed.
Lemma one_request s e : s < e -> proper_request (inside all_time) [frame s e].
Proof.
  intros L. split; [constructor; [|constructor]; apply frame_inside; [exact L|intros; apply all_time_in]|]. intros [|[|j]] [|[|k]] a b i J K; cbn in J, K; congruence.
Qed.
(** The second request is served partly from the cache, the third wholly. *)
Example C22_demo :
  let h := [([], [frame 0 5]); ([], [frame 0 5; frame 5 10]); ([], [frame 5 10])] in
  let chunks := hdf_energies (demo_rows 11 1) demo_columns all_time 10 20 in
  Forall (fun q => fst q = [] /\ proper_request (inside all_time) (snd q)) h /\
  with_cache chunks h = [Ok (4, 8, 0); Ok (8, 16, 0); Ok (4, 8, 0)] /\ (length (snd (serve energy_stat chunks h [])) = 2)%nat.
Proof.
  split; [|split; vm_compute; reflexivity]. constructor; [|constructor; [|constructor; [|constructor]]]; (split; [reflexivity|]); cbn [fst snd]; [apply one_request; lia|apply demo_request|apply one_request; lia].
Qed.
Example C22_demo_one :
  let h := [([Active], [frame 0 5]); ([Active], [frame 0 5; frame 5 10])] in
  let chunks := hdf_energies (demo_rows 11 1) demo_columns all_time 10 20 in
  (forall t u v, In t (requested h) -> In (u, v) (chunks [Active] t) -> en_get Active v <> None) /\ with_cache chunks h = [Ok (4, 0, 0); Ok (8, 0, 0)].
Proof.
  split; [|vm_compute; reflexivity]. intros t u v I. cbn in I. destruct I as [<-|[<-|[<-|[]]]]; intros H; vm_compute in H; destruct H as [H|[]]; injection H as <- <-; discriminate.
Qed.
Example C22_demo_dropout :
  let chunks := fun (_ : list actype) (t : tf) => [(t, mkDrop (Some 0%Q) 5)] in
  (forall ac, whole (inside all_time) (chunks ac) (fun _ _ => Some (mkDrop (Some 0%Q) 5))) /\
  map (fun r => match r with Ok d => length d | Err _ => O end) (fst (serve dropout_stat chunks [([], [frame 0 5]); ([Active], [frame 0 5; frame 5 10])] [])) = [1%nat; 2%nat].
Proof. split; [|vm_compute; reflexivity]. intros ac t s e _ B. exists t. auto. Qed.

(** A section that reaches out of the window is computed for its part inside and stored under that part, every
    time it is asked for; a request for the part then adds up all the stored rows. *)
Theorem C22_window_refuted : exists window h,
  Forall (fun q => fst q = [] /\ Forall is_bounded (snd q) /\ no_overlap (snd q)) h /\
  with_cache (hdf_energies (demo_rows 11 1) demo_columns window 10 20) h = [Ok (4, 8, 0); Ok (4, 8, 0); Ok (8, 16, 0)] /\
  from_scratch (hdf_energies (demo_rows 11 1) demo_columns window 10 20) h = [Ok (4, 8, 0); Ok (4, 8, 0); Ok (4, 8, 0)].
Proof.
  exists (frame 0 5), [([], [frame 0 10]); ([], [frame 0 10]); ([], [frame 0 5])]. split; [|split; vm_compute; reflexivity].
  assert (BOUNDED : forall s e, s < e -> Forall is_bounded [frame s e] /\ no_overlap [frame s e]).
  { intros s e L. split; [constructor; [|constructor]; exists s, e; repeat split; exact L|]. intros [|[|j]] [|[|k]] a b i J K; cbn in J, K; congruence. }
  constructor; [|constructor; [|constructor; [|constructor]]]; (split; [reflexivity|]); apply BOUNDED; lia.
Qed.
Print Assumptions C22_window_refuted.

(** The same with sections of several chunks: they are stored chunk by chunk. *)
Theorem C22_chunks_refuted : exists h,
  Forall (fun q => fst q = [] /\ proper_request (inside all_time) (snd q)) h /\
  with_cache (hdf_energies (demo_rows 11 1) demo_columns all_time 10 4) h = [Ok (9, 18, 0); Ok (9, 18, 0); Ok (8, 16, 0)] /\
  from_scratch (hdf_energies (demo_rows 11 1) demo_columns all_time 10 4) h = [Ok (9, 18, 0); Ok (9, 18, 0); Ok (3, 6, 0)].
Proof.
  exists [([], [frame 0 10]); ([], [frame 0 10]); ([], [frame 0 4])]. split; [|split; vm_compute; reflexivity].
  constructor; [|constructor; [|constructor; [|constructor]]]; (split; [reflexivity|]); apply one_request; lia.
Qed.
Print Assumptions C22_chunks_refuted.

(** total_energy(ac_type='active'), then total_energy(): the second answer has no reactive energy. *)
Theorem C22_types_refuted : exists h,
  Forall (fun q => proper_request (inside all_time) (snd q)) h /\
  with_cache (hdf_energies (demo_rows 11 1) demo_columns all_time 10 20) h = [Ok (4, 0, 0); Ok (4, 0, 0)] /\
  from_scratch (hdf_energies (demo_rows 11 1) demo_columns all_time 10 20) h = [Ok (4, 0, 0); Ok (4, 8, 0)].
Proof.
  exists [([Active], [frame 0 5]); ([], [frame 0 5])]. split; [|split; vm_compute; reflexivity].
  constructor; [|constructor; [|constructor]]; apply one_request; lia.
Qed.
Print Assumptions C22_types_refuted.

(** total_energy(ac_type='active') twice for a section without data stores its row twice; then a request for
    that section and a new one raises ValueError. *)
Theorem C22_no_data_refuted : exists h,
  Forall (fun q => proper_request (inside all_time) (snd q)) h /\
  with_cache (hdf_energies (demo_rows 11 1) demo_columns all_time 10 20) h = [Ok (0, 0, 0); Ok (0, 0, 0); Err ValueError] /\
  from_scratch (hdf_energies (demo_rows 11 1) demo_columns all_time 10 20) h = [Ok (0, 0, 0); Ok (0, 0, 0); Ok (4, 8, 0)].
Proof.
  exists [([Active], [frame 20 30]); ([Active], [frame 20 30]); ([], [frame 0 5; frame 20 30])]. split; [|split; vm_compute; reflexivity].
  constructor; [apply one_request; lia|]. constructor; [apply one_request; lia|]. constructor; [|constructor]. cbn [snd]. split; [constructor; [|constructor; [|constructor]]; (apply frame_inside; [lia|intros; apply all_time_in])|].
  intros j k a b i J K (_ & A1 & A2) (_ & B1 & B2). destruct j as [|[|j]], k as [|[|k]]; cbn in J, K; try reflexivity; try (destruct j; discriminate); try (destruct k; discriminate); injection J as <-; injection K as <-; specialize (A1 _ eq_refl); specialize (A2 _ eq_refl); specialize (B1 _ eq_refl); specialize (B2 _ eq_refl); lia.
Qed.
Print Assumptions C22_no_data_refuted.

(** Meters of a dataset with different (building, instance), or different statistics, have different keys.
    Missing from the full property: the dataset (refuted below). *)
Theorem C23_keys_partial : forall m m' s s', proper_id m -> proper_id m' ->
  key_for_cached_stat m s = key_for_cached_stat m' s' -> id_building m = id_building m' /\ id_instance m = id_instance m' /\ s = s'.
Proof. exact keys_thm. Qed.
Print Assumptions C23_keys_partial.

(** clear_cache() of a meter names a part of the cache that has all the statistics of that meter and of no
    other meter of the dataset. *)
Theorem C23_clear_partial : forall m m' s, proper_id m -> proper_id m' ->
  (startswith (key_for_cached_stat m []) (key_for_cached_stat m' s) = true <-> id_building m = id_building m' /\ id_instance m = id_instance m').
Proof. exact clear_thm. Qed.
Print Assumptions C23_clear_partial.
Example C23_demo : proper_id (mkId (One 1) 1 (lit "REDD")) /\ proper_id (mkId (Many [1; 2]) 1 (lit "REDD")) /\
  key_for_cached_stat (mkId (Many [1; 2]) 1 (lit "REDD")) (lit "total_energy") = lit "building1/elec/cache/meter1_2/total_energy" /\
  startswith (key_for_cached_stat (mkId (One 1) 1 (lit "REDD")) []) (key_for_cached_stat (mkId (One 12) 1 (lit "REDD")) (lit "total_energy")) = false.
Proof. repeat split; try (vm_compute; reflexivity); cbn; try lia. repeat constructor; lia. Qed.

(** Meters of two datasets with one building and instance share their keys, and there is one cache: a meter gets
    the energy of the other one. *)
Theorem C23_dataset_refuted : exists m m' rows rows' sections,
  proper_id m /\ proper_id m' /\ m <> m' /\ (forall s, key_for_cached_stat m s = key_for_cached_stat m' s) /\
  proper_request (inside all_time) sections /\
  let energies rows := hdf_energies rows demo_columns all_time 10 20 [] in
  let cache := snd (get_stat energy_stat (energies rows) [] sections []) in
  combined_answer (fst (get_stat energy_stat (energies rows') [] sections cache)) = Ok (8, 16, 0) /\
  combined_answer (fst (get_stat energy_stat (energies rows') [] sections [])) = Ok (56, 112, 0).
Proof.
  exists (mkId (One 1) 1 (lit "REDD")), (mkId (One 1) 1 (lit "UK-DALE")), (demo_rows 11 1), (demo_rows 11 7), [frame 0 5; frame 5 10].
  split; [split; cbn; lia|]. split; [split; cbn; lia|]. split; [discriminate|]. split; [reflexivity|]. split; [apply demo_request|]. split; vm_compute; reflexivity.
Qed.
Print Assumptions C23_dataset_refuted.

(** A group of one meter has the key of that meter. *)
Theorem C23_tuple_refuted : exists m m', m <> m' /\ forall s, key_for_cached_stat m s = key_for_cached_stat m' s.
Proof. exists (mkId (One 5) 1 (lit "REDD")), (mkId (Many [5]) 1 (lit "REDD")). split; [discriminate|reflexivity]. Qed.
Print Assumptions C23_tuple_refuted.
