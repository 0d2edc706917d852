(** C70: disaggregation into a data store. *)
From Coq Require Import String.
From Verif Require Import Base TimeFrameModel TimeFrameSpec NearestModel NearestSpec NearestProofs LcoModel LcoSpec LcoProofs LcoProofs2.
Import List.
Open Scope list_scope.
Open Scope nat_scope.

(** After any history of training, disaggregation, export and import, a chunk of
    at least 100 readings gets, for each trained meter, a column in which every
    reading is split in the best possible way among the states learnt so far. *)
Theorem C70_estimates : forall argsort c mains, (forall l, sorts (argsort l) l) -> reachable c -> c_model c <> [] -> 100 <= length mains ->
  exists f, snd (disaggregate_chunk argsort c mains) = Ok f /\ c_model (fst (disaggregate_chunk argsort c mains)) = c_model c /\
    estimates (c_model c) mains f.
Proof. exact estimates_spec. Qed.
Print Assumptions C70_estimates.

(** An untrained disaggregator or a shorter chunk is refused; nothing changes. *)
Theorem C70_chunk_errors : forall argsort c mains, c_model c = [] \/ length mains < 100 ->
  disaggregate_chunk argsort c mains = (c, Err RuntimeError).
Proof. exact chunk_errors. Qed.
Print Assumptions C70_chunk_errors.

(** Training learns one set of states per submeter, from its first chunk, in the
    order of the submeters: with at most two clusters if the group has more than
    twelve meters, else three, or one less than the number of states asked for. *)
Theorem C70_train : forall C (cluster : C -> Z -> option Z -> res (list Z)) n subs ns sts,
  NoDup (map (fun p => m_id (fst p)) subs) ->
  Forall2 (fun p s => exists ch rest, snd p = (ch :: rest, None) /\
    cluster ch (if 12 <? n then 2%Z else 3%Z) (option_map (fun n => (n - 1)%Z) (ns (fst p))) = Ok s) subs sts ->
  exists c, train cluster co_new n subs ns = (c, None) /\ map e_meter (c_model c) = map fst subs /\ map e_states (c_model c) = sts.
Proof. exact train_ok. Qed.
Print Assumptions C70_train.

(** A disaggregator that has learnt anything refuses to be trained again. *)
Theorem C70_train_again : forall C (cluster : C -> Z -> option Z -> res (list Z)) c n subs ns, c_model c <> [] ->
  train cluster c n subs ns = (c, Some RuntimeError).
Proof. exact train_again. Qed.
Print Assumptions C70_train_again.

(** Whatever chunks the mains yield, and whether or not reading them fails in
    the end: afterwards the table of each trained meter has gained exactly its
    estimates for the chunks of at least 100 readings, that of the mains the
    readings of these chunks, with the same time stamps, and every other table
    is unchanged.  If reading fails the exception is passed on and no metadata
    is written. *)
Theorem C70_output : forall argsort c b chs e rs sp st name dt, (forall l, sorts (argsort l) l) -> reachable c -> c_model c <> [] -> own_keys c ->
  fits c b st name dt chs ->
  let long := filter is_long chs in
  exists fs, Forall2 (fun ch f => estimates (c_model c) (map snd (ch_rows ch)) f) long fs /\
    exists c' st' x, disaggregate argsort c b (chs, e) rs sp st = (c', st', x) /\ c_model c' = c_model c /\ written c b st long fs st' /\
      (e <> None -> x = e) /\
      (e <> None \/ long = [] -> st_root st' = st_root st /\ st_buildings st' = st_buildings st) /\
      (e = None -> long = [] -> st' = st /\ x = None).
Proof. exact output_spec. Qed.
Print Assumptions C70_output.

(** If the chunks are in order the metadata then describe the mains as meter 1
    and exactly the trained meters as its submeters, each with the place of its
    data, and their appliances; the time frame reaches from the start of the
    first chunk to the end of the last. *)
Theorem C70_metadata : forall argsort c b chs rs sp p st name dt, (forall l, sorts (argsort l) l) -> reachable c -> c_model c <> [] -> own_keys c ->
  fits c b st name dt chs -> asked_period rs sp p -> (0 <= p)%Z ->
  let long := filter is_long chs in
  forall first last, hd_error long = Some first -> last_opt long = Some last ->
  Forall is_bounded (map ch_frame long) -> in_order (map ch_frame long) ->
  let frame := (tf_start (ch_frame first), tf_end (ch_frame last)) in
  exists c' st' bm, disaggregate argsort c b (chs, None) rs sp st = (c', st', None) /\
    st_root st' = Some (mk_rmeta (p) name frame) /\
    get_meta b (st_buildings st') = Some bm /\ (forall b', b' <> b -> get_meta b' (st_buildings st') = get_meta b' (st_buildings st)) /\
    get_meta 1%Z (b_meters bm) = Some (mk_mmeta true None (b, 1%Z) None frame) /\
    (forall e, In e (c_model c) -> exists n, (n = m_name (e_meter e) \/ m_name (e_meter e) = Some EmptyString /\ n = None) /\
       get_meta (inst e) (b_meters bm) = Some (mk_mmeta false (Some 1%Z) (b, inst e) n frame)) /\
    (forall i, i <> 1%Z -> ~ In i (map inst (c_model c)) -> get_meta i (b_meters bm) = None) /\
    (forall x, In x (b_apps bm) <-> exists e a, In e (c_model c) /\ In a (m_apps (e_meter e)) /\ x = ([inst e], ap_type a, ap_instance a)).
Proof. exact metadata_period. Qed.
Print Assumptions C70_metadata.

(** Nothing is written by an untrained disaggregator. *)
Theorem C70_untrained : forall argsort c b mains rs sp st, c_model c = [] -> disaggregate argsort c b mains rs sp st = (c, st, Some RuntimeError).
Proof. exact untrained. Qed.
Print Assumptions C70_untrained.

(** Adding to a table of another measurement (or dtype) fails. *)
Theorem C70_layout_error : forall argsort c b ch chs e rs sp st en l t, (forall l, sorts (argsort l) l) -> reachable c -> c_model c = en :: l ->
  is_long ch = true -> lookup (b, inst en) (st_tables st) = Some t -> fst t <> (ch_name ch, float32) ->
  exists c', disaggregate argsort c b (ch :: chs, e) rs sp st = (c', st, Some ValueError).
Proof. exact layout_error. Qed.
Print Assumptions C70_layout_error.

(** ** A concrete case *)

Definition ex_meter (i b : Z) : meter := mk_meter (mk_ident i b 0) (Some "m"%string) [mk_appliance "fridge" i].
Definition ex_cluster (ch : list Z) (k : Z) (n : option Z) : res (list Z) := Ok (0%Z :: ch).
Definition ex_power : column := ("power"%string, "active"%string).
Definition ex_rows (t : Z) (n : nat) (v : Z) : list (Z * option Z) := map (fun i => (t + Z.of_nat i, Some v)%Z) (seq 0 n).
Definition ex_frame (s e : Z) : tf := mkTF (Some s) (Some e) true false false.
Definition ex_chunk (t : Z) (n : nat) (v : Z) : chunk := mk_chunk (ex_frame t (t + Z.of_nat n)) ex_power float32 (ex_rows t n v).
Definition ex_store : store := mk_store [] None [].
Definition ex_train (ms : list meter) : co * option exn :=
  train ex_cluster co_new (S (length ms)) (map (fun m => (m, ([[10 * id_instance (m_id m)]%Z], None))) ms) (fun _ => None).
Definition ex_co (ms : list meter) : co := fst (ex_train ms).

Lemma ex_reachable ms : reachable (ex_co ms).
Proof. apply reach_train; [intros ch k n s [= <-]; discriminate|constructor]. Qed.

Definition ex_run (c : co) (b : Z) (chs : list chunk) (st : store) := disaggregate argsort_ins c b (chs, None) None None st.

Example C70_example :
  let c := ex_co [ex_meter 2 1; ex_meter 3 1] in
  let chs := [ex_chunk 0 100 48; ex_chunk 200 5 20; ex_chunk 300 101 32] in
  (forall l, sorts (argsort_ins l) l) /\
  reachable c /\ map e_states (c_model c) = [[0; 20]; [0; 30]]%Z /\ own_keys c /\ fits c 1 ex_store ex_power float32 chs /\
  Forall is_bounded (map ch_frame (filter is_long chs)) /\ in_order (map ch_frame (filter is_long chs)) /\
  exists c' st', ex_run c 1 chs ex_store = (c', st', None) /\
    rows_at (1, 2)%Z st' = ex_rows 0 100 20 ++ ex_rows 300 101 0 /\ rows_at (1, 3)%Z st' = ex_rows 0 100 30 ++ ex_rows 300 101 30 /\
    rows_at (1, 1)%Z st' = ex_rows 0 100 48 ++ ex_rows 300 101 32 /\
    st_root st' = Some (mk_rmeta 60 ex_power (Some 0, Some 401)%Z).
Proof.
  intros c chs. split; [exact argsort_ins_sorts|]. split; [apply ex_reachable|]. split; [reflexivity|].
  split; [split; [repeat constructor; cbn; intuition lia|cbn; intuition lia]|].
  split; [split; [repeat constructor|]; split; [intros e _ t H; discriminate|intros t H; discriminate]|].
  split; [vm_compute; constructor; [exists 0%Z, 100%Z; repeat split|]; constructor; [exists 300%Z, 401%Z; repeat split|constructor]|].
  split; [cbn; split; [intros e s [= <-] [= <-]; lia|exact I]|].
  eexists; eexists. split; [vm_compute; reflexivity|]. vm_compute. auto 10.
Qed.

(** ** What does not hold *)

(** Chunks of fewer than 100 readings are dropped without an error: neither
    estimates nor the mains readings reach the output. *)
Theorem C70_short_refuted : forall argsort c b chs rs sp st, c_model c <> [] -> Forall (fun ch => length (ch_rows ch) < 100) chs ->
  disaggregate argsort c b (chs, None) rs sp st = (c, st, None).
Proof. exact short_dropped. Qed.
Print Assumptions C70_short_refuted.

(** If a trained meter has instance 1 its estimates and the mains readings are
    mixed in one table, and the metadata call it a submeter of itself. *)
Theorem C70_instance_one_refuted : exists c c' st', reachable c /\
  ex_run c 1 [ex_chunk 0 100 12] ex_store = (c', st', None) /\
  rows_at (1, 1)%Z st' = ex_rows 0 100 10 ++ ex_rows 0 100 12 /\
  exists bm mm, get_meta 1%Z (st_buildings st') = Some bm /\ get_meta 1%Z (b_meters bm) = Some mm /\ mm_site_meter mm = false /\ mm_submeter_of mm = Some 1%Z.
Proof.
  exists (ex_co [ex_meter 1 1]). eexists; eexists. split; [apply ex_reachable|]. split; [vm_compute; reflexivity|]. split; [vm_compute; reflexivity|].
  eexists; eexists. split; [vm_compute; reflexivity|]. split; [vm_compute; reflexivity|]. split; reflexivity.
Qed.
Print Assumptions C70_instance_one_refuted.

(** Meters of different buildings with the same instance share one table, in
    which every time stamp then occurs twice. *)
Theorem C70_same_instance_refuted : exists c c' st', reachable c /\ NoDup (map (fun e => m_id (e_meter e)) (c_model c)) /\
  ex_run c 1 [ex_chunk 0 100 20] ex_store = (c', st', None) /\
  length (rows_at (1, 2)%Z st') = 200 /\ ~ NoDup (map fst (rows_at (1, 2)%Z st')).
Proof.
  exists (ex_co [ex_meter 2 1; ex_meter 2 5]). eexists; eexists. split; [apply ex_reachable|]. split; [repeat constructor; cbn; intuition discriminate|].
  split; [vm_compute; reflexivity|]. split; [reflexivity|]. vm_compute. intros H.
  apply NoDup_cons_iff in H. apply (proj1 H). clear H. do 99 right. left. reflexivity.
Qed.
Print Assumptions C70_same_instance_refuted.

(** Disaggregating the same mains into the same store again does not replace the
    first result: every reading is stored twice. *)
Theorem C70_again_refuted : exists c c1 st1 c2 st2, reachable c /\ own_keys c /\
  ex_run c 1 [ex_chunk 0 100 20] ex_store = (c1, st1, None) /\ ex_run c1 1 [ex_chunk 0 100 20] st1 = (c2, st2, None) /\
  rows_at (1, 2)%Z st1 = ex_rows 0 100 20 /\ rows_at (1, 2)%Z st2 = ex_rows 0 100 20 ++ ex_rows 0 100 20.
Proof.
  exists (ex_co [ex_meter 2 1]). eexists; eexists; eexists; eexists. split; [apply ex_reachable|]. split; [split; [repeat constructor; cbn; intuition lia|cbn; intuition lia]|].
  split; [vm_compute; reflexivity|]. split; [vm_compute; reflexivity|]. split; vm_compute; reflexivity.
Qed.
Print Assumptions C70_again_refuted.

(** With a second building in the same store, the time frame of the data set is
    that of the second building only. *)
Theorem C70_two_buildings_refuted : exists c c1 st1 c2 st2, reachable c /\ own_keys c /\
  ex_run c 1 [ex_chunk 0 100 20] ex_store = (c1, st1, None) /\ ex_run c1 2 [ex_chunk 500 100 20] st1 = (c2, st2, None) /\
  rows_at (1, 2)%Z st2 = ex_rows 0 100 20 /\ st_root st2 = Some (mk_rmeta 60 ex_power (Some 500, Some 600)%Z).
Proof.
  exists (ex_co [ex_meter 2 1]). eexists; eexists; eexists; eexists. split; [apply ex_reachable|]. split; [split; [repeat constructor; cbn; intuition lia|cbn; intuition lia]|].
  split; [vm_compute; reflexivity|]. split; [vm_compute; reflexivity|]. split; vm_compute; reflexivity.
Qed.
Print Assumptions C70_two_buildings_refuted.

(** A submeter without data aborts training, and what was learnt before it stays:
    a second attempt is refused. *)
Theorem C70_failed_train_refuted : forall C (cluster : C -> Z -> option Z -> res (list Z)) n m ch s m' subs ns n' subs' ns',
  cluster ch (if 12 <? n then 2%Z else 3%Z) (option_map (fun n => (n - 1)%Z) (ns m)) = Ok s ->
  exists c, train cluster co_new n ((m, ([ch], None)) :: (m', ([], None)) :: subs) ns = (c, Some StopIteration) /\
    train cluster c n' subs' ns' = (c, Some RuntimeError).
Proof. exact train_failed. Qed.
Print Assumptions C70_failed_train_refuted.
