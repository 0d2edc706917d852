(** C91: factorial HMM disaggregation into a data store. *)
From Coq Require Import String QArith Sorted.
From Verif Require Import Base TimeFrameModel TimeFrameSpec LcoModel LcoSpec LfhModel LfhSpec LfhProofs LfhProofs2 LfhProofs3 LfhProofs4.
From Verif Require FhmmSpec.
Import List.
Open Scope list_scope.
Open Scope nat_scope.

(** Whenever the combined model can explain the readings of a chunk, the
    estimates are those of the states it found: in every row, the rounded means
    of one state of each appliance, at the times of the readings that are not
    missing. *)
Theorem C91_estimates : forall predict f ch states, learnt f -> explains predict f ch states ->
  exists frame, f_chunk predict f (ch_rows ch) = Ok frame /\ estimated predict f ch frame.
Proof. exact chunk_spec. Qed.
Print Assumptions C91_estimates.

(** Whatever chunks the mains yield, and whether or not reading them fails in
    the end: the table of each trained meter gains exactly its estimates for the
    chunks of at least 100 rows, that of the mains the rows of these chunks, and
    every other table stays as it is.  If reading fails, no metadata are
    written; if no chunk is long enough, nothing is. *)
Theorem C91_output : forall S predict f ms b (m : mains S) kw st p good chs e name dt, learnt f -> trained_on f ms -> mn_good m = Ok good ->
  asked_period (k_resample kw) (k_period kw) p -> mn_power m (sections_of kw good) p = (chs, e) ->
  let targets := map (fun m => Some (number m)) ms in
  apart targets -> ready predict f b st name None dt targets chs ->
  let long := filter is_long chs in
  exists frames st' x, f_disaggregate predict f b m kw st = (st', x) /\ Forall2 (estimated predict f) long frames /\ wrote b targets st long frames st' /\
    (e <> None -> x = e) /\
    (e <> None \/ long = [] -> st_root st' = st_root st /\ st_buildings st' = st_buildings st) /\
    (e = None -> long = [] -> st' = st /\ x = None).
Proof. exact @run_output. Qed.
Print Assumptions C91_output.

(** If the chunks are in order the call succeeds and the metadata describe the
    mains as meter 1 and exactly the trained meters as its submeters, with
    their appliances and the time frame from the first chunk to the last. *)
Theorem C91_metadata : forall S predict f ms b (m : mains S) kw st p good chs name dt, learnt f -> trained_on f ms -> f_meters f = ms -> mn_good m = Ok good ->
  asked_period (k_resample kw) (k_period kw) p -> mn_power m (sections_of kw good) p = (chs, None) ->
  let targets := map (fun m => Some (number m)) ms in
  apart targets -> ready predict f b st name None dt targets chs -> (0 <= p)%Z ->
  let long := filter is_long chs in
  forall first last, hd_error long = Some first -> last_opt long = Some last ->
  Forall is_bounded (map ch_frame long) -> in_order (map ch_frame long) ->
  let frame := (tf_start (ch_frame first), tf_end (ch_frame last)) in
  exists st' bm, f_disaggregate predict f b m kw st = (st', None) /\
    st_root st' = Some (mk_rmeta p name frame) /\
    get_meta b (st_buildings st') = Some bm /\ (forall b', b' <> b -> get_meta b' (st_buildings st') = get_meta b' (st_buildings st)) /\
    get_meta 1%Z (b_meters bm) = Some (mk_mmeta true None (b, 1%Z) None frame) /\
    (forall m, In m ms -> exists n, (n = m_name m \/ m_name m = Some EmptyString /\ n = None) /\
       get_meta (number m) (b_meters bm) = Some (mk_mmeta false (Some 1%Z) (b, number m) n frame)) /\
    (forall i, i <> 1%Z -> ~ In i (map number ms) -> get_meta i (b_meters bm) = None) /\
    (forall x, In x (b_apps bm) <-> exists m a, In m ms /\ In a (m_apps m) /\ x = ([number m], ap_type a, ap_instance a)).
Proof. exact @run_metadata. Qed.
Print Assumptions C91_metadata.

(** Without training nothing is written, and the call says so. *)
Theorem C91_untrained : forall S predict f b (m : mains S) kw st, f_ind f = [] -> f_disaggregate predict f b m kw st = (st, Some RuntimeError).
Proof. exact @untrained_spec. Qed.
Print Assumptions C91_untrained.

(** Several buildings, with the sections to read given: each building gets the
    estimates for its own mains, under its own meters, and the store stays as
    it is otherwise. *)
Theorem C91_across : forall S predict (ds : Z -> option (building S)) (s : S) p apps, (0 <= p)%Z -> forall bs f kw cols st, learnt f -> f_apps f = Some apps -> NoDup bs ->
  asked_period (k_resample kw) (k_period kw) p -> k_sections kw = Some s ->
  (forall b, In b bs -> exists bd targets chs, ds b = Some bd /\ prepared predict f s p st b bd targets chs) ->
  exists ms st', f_across predict ds bs f kw cols st = (ms, st', None) /\
    (forall b bd targets chs, In b bs -> ds b = Some bd -> prepared predict f s p st b bd targets chs ->
       let long := filter is_long chs in
       exists frames, Forall2 (estimated predict f) long frames /\ filled b targets st long frames st') /\
    (forall k, ~ In (fst k) bs -> lookup k (st_tables st') = lookup k (st_tables st)).
Proof. exact @across_ok. Qed.
Print Assumptions C91_across.

(** The metadata then describe, for each building with a long chunk, its mains
    and exactly the first submeter of each appliance asked for; those of other
    buildings stay as they are. *)
Theorem C91_across_metadata : forall S predict (ds : Z -> option (building S)) (s : S) p apps, (0 <= p)%Z -> NoDup apps -> forall bs f kw cols st, learnt f -> f_apps f = Some apps -> NoDup bs ->
  asked_period (k_resample kw) (k_period kw) p -> k_sections kw = Some s ->
  (forall b, In b bs -> exists bd targets chs, ds b = Some bd /\ numbered bd /\ prepared predict f s p st b bd targets chs) ->
  exists ms st', f_across predict ds bs f kw cols st = (ms, st', None) /\
    (forall b bd chs, In b bs -> ds b = Some bd -> mn_power (bd_mains bd) s p = (chs, None) ->
       match filter is_long chs with
       | [] => get_meta b (st_buildings st') = get_meta b (st_buildings st)
       | first :: rest => exists last bm, last_opt (first :: rest) = Some last /\ get_meta b (st_buildings st') = Some bm /\
           describes b (tf_start (ch_frame first), tf_end (ch_frame last)) (chosen bd apps) bm
       end) /\
    (forall b, ~ In b bs -> get_meta b (st_buildings st') = get_meta b (st_buildings st)).
Proof. exact @across_meta. Qed.
Print Assumptions C91_across_metadata.

(** Not so if they are not given: each building ought to be read over its own
    good sections (as a single one is, C91_output), but all are read over those
    of the first. *)
Theorem C91_across_sections_refuted : forall S predict (ds : Z -> option (building S)) b bs f kw st bd g, ds b = Some bd -> mn_good (bd_mains bd) = Ok g -> k_sections kw = None ->
  f_across predict ds (b :: bs) f kw None st = f_across predict ds (b :: bs) f (given kw g) None st.
Proof. exact @across_sections. Qed.
Print Assumptions C91_across_sections_refuted.

(** A building with none of the appliances ought to be passed over; if it
    comes first, the call fails and the other buildings get nothing. *)
Theorem C91_absent_refuted : forall S predict (ds : Z -> option (building S)) b bs f apps kw st p bd g ch chs e, learnt f -> f_apps f = Some apps ->
  asked_period (k_resample kw) (k_period kw) p -> ds b = Some bd -> mn_good (bd_mains bd) = Ok g -> mn_power (bd_mains bd) (sections_of kw g) p = (ch :: chs, e) ->
  Forall (fun m => m_apps m <> [] /\ number m <> (-1)%Z) (bd_subs bd) -> (forall m, In m (bd_subs bd) -> exists m', bd_item bd (number m) = Ok m') ->
  Forall (fun w => goes_to bd w None) (map fst (f_ind f)) -> is_long ch = true -> usable predict f ch ->
  exists ms, f_across predict ds (b :: bs) f kw None st = (ms, st, Some UnboundLocalError).
Proof. exact @absent_spec. Qed.
Print Assumptions C91_absent_refuted.

(** A long chunk without any reading ought to be passed over; if the model
    refuses to explain nothing (hmmlearn does), the call fails there: later
    chunks are not disaggregated and the tables already written get no
    metadata. *)
Theorem C91_gap_refuted : forall S predict f ms b (m : mains S) kw st p good before gap after e name dt x, learnt f -> trained_on f ms -> mn_good m = Ok good ->
  asked_period (k_resample kw) (k_period kw) p -> mn_power m (sections_of kw good) p = (before ++ gap :: after, e) ->
  let targets := map (fun m => Some (number m)) ms in
  apart targets -> ready predict f b st name None dt targets before ->
  predict [] = Err x -> is_long gap = true -> present (ch_rows gap) = [] ->
  let long := filter is_long before in
  exists frames st', f_disaggregate predict f b m kw st = (st', Some x) /\ Forall2 (estimated predict f) long frames /\
    wrote b targets st long frames st' /\ st_root st' = st_root st /\ st_buildings st' = st_buildings st.
Proof. exact @no_reading. Qed.
Print Assumptions C91_gap_refuted.

(** A model trained across buildings cannot disaggregate a single one: the
    call always fails, with nothing written. *)
Theorem C91_single_refuted : forall S predict f b (m : mains S) kw st p good chs e t r, learnt f -> map fst (f_ind f) = Typed t :: r -> mn_good m = Ok good ->
  asked_period (k_resample kw) (k_period kw) p -> mn_power m (sections_of kw good) p = (chs, e) ->
  Forall (fun ch => is_long ch = true -> usable predict f ch) chs -> Exists (fun ch => is_long ch = true) chs ->
  f_disaggregate predict f b m kw st = (st, Some AttributeError).
Proof. exact @types_spec. Qed.
Print Assumptions C91_single_refuted.

(** ** Examples *)

Definition ex_app (t : string) := mk_appliance t 1.
Definition ex_meter (b i : Z) (t : string) : meter := mk_meter (mk_ident i b 0) (Some EmptyString) [ex_app t].
Definition ex_m2 := ex_meter 1 2 "kettle". Definition ex_m3 := ex_meter 1 3 "fridge".
Definition ex_name : column := ("power", "active")%string.
(** A kettle of 0 or 1999.5 W and a fridge of 0 or 100.5 W. *)
Definition ex_f : fh := mk_fh [(Trained ex_m2, [0; 3999#2]%Q); (Trained ex_m3, [0; 201#2]%Q)] [ex_m2; ex_m3] None.
Definition ex_predict (l : list Z) : res (list nat) :=
  match l with [] => Err ValueError | _ => Ok (map (fun v => (if (v <? 1000)%Z then 0 else 2) + (if (v mod 1000 <? 50)%Z then 0 else 1)) l) end.
Definition ex_rows (t0 : Z) : list (Z * option Z) :=
  map (fun i => ((t0 + Z.of_nat i * 60)%Z, if i =? 3 then None else Some (if Nat.even i then 2100 else 100)%Z)) (seq 0 100).
Definition ex_chunk (t0 : Z) : chunk := mk_chunk (mkTF (Some t0) (Some (t0 + 6000)%Z) true false false) ex_name float32 (ex_rows t0).
Definition ex_gap (t0 : Z) : chunk := mk_chunk (mkTF (Some t0) (Some (t0 + 6000)%Z) true false false) ex_name float32 (map (fun r => (fst r, None)) (ex_rows t0)).
Definition ex_short : chunk := mk_chunk (mkTF (Some 6000%Z) (Some 6060%Z) true false false) ex_name float32 [(6000, Some 7)]%Z.
Definition ex_store : store := mk_store [] None [].
Definition ex_mains (chs : list chunk) : mains nat := mk_mains (Ok 0) (fun s p => if s =? 0 then (chs, None) else ([], None)).
Definition ex_kw : kwargs nat := mk_kw None None None.

Lemma ex_learnt : learnt ex_f.
Proof. split; [discriminate|]. repeat (constructor; [split; [discriminate|repeat constructor; cbv; discriminate]|]). constructor. Qed.
Lemma ex_bound : forall l s, In s (map (fun v => (if (v <? 1000)%Z then 0 else 2) + (if (v mod 1000 <? 50)%Z then 0 else 1)) l) -> s < 4.
Proof. intros l s H. apply in_map_iff in H. destruct H as (v & <- & _). destruct (v <? 1000)%Z, (v mod 1000 <? 50)%Z; lia. Qed.
Lemma ex_usable t : usable ex_predict ex_f (ex_chunk t).
Proof.
  split; [discriminate|]. eexists. split; [reflexivity|]. split; [rewrite !map_length; reflexivity|]. apply Forall_forall. intros s H. exact (ex_bound _ s H).
Qed.
Lemma ex_apart : apart (map (fun m => Some (number m)) [ex_m2; ex_m3]).
Proof.
  split; [|split].
  - intros [|[|i]] [|[|j]] z; cbn; try reflexivity; try congruence; try (destruct i; discriminate); try (destruct j; discriminate).
  - cbn. intros [H|[H|[]]]; discriminate.
  - exists 2%Z. left. reflexivity.
Qed.
Lemma ex_ready : ready ex_predict ex_f 1 ex_store ex_name None float32 (map (fun m => Some (number m)) [ex_m2; ex_m3]) [ex_chunk 0; ex_short; ex_chunk 9000].
Proof.
  split; [|split; [intros z _ t H; discriminate|intros t H; discriminate]]. constructor; [intros _; split; [apply ex_usable|split; reflexivity]|]. constructor; [discriminate|].
  constructor; [intros _; split; [apply ex_usable|split; reflexivity]|constructor].
Qed.

(** The hypotheses are met: two long chunks, with a missing reading in each, and
    a short one. *)
Example C91_example_output : learnt ex_f /\ trained_on ex_f [ex_m2; ex_m3] /\ f_meters ex_f = [ex_m2; ex_m3] /\ apart (map (fun m => Some (number m)) [ex_m2; ex_m3]) /\
  ready ex_predict ex_f 1 ex_store ex_name None float32 (map (fun m => Some (number m)) [ex_m2; ex_m3]) [ex_chunk 0; ex_short; ex_chunk 9000] /\
  filter is_long [ex_chunk 0; ex_short; ex_chunk 9000] = [ex_chunk 0; ex_chunk 9000] /\
  asked_period (k_resample ex_kw) (k_period ex_kw) 60 /\ Forall is_bounded (map ch_frame [ex_chunk 0; ex_chunk 9000]) /\ in_order (map ch_frame [ex_chunk 0; ex_chunk 9000]).
Proof.
  split; [exact ex_learnt|]. split; [reflexivity|]. split; [reflexivity|]. split; [exact ex_apart|]. split; [exact ex_ready|]. split; [reflexivity|].
  split; [right; right; repeat split|]. split.
  - constructor; [exists 0%Z, 6000%Z; repeat split; lia|]. constructor; [exists 9000%Z, 15000%Z; repeat split; lia|constructor].
  - cbn. split; [|exact I]. intros e s [= <-] [= <-]. lia.
Qed.
Definition ex_run := f_disaggregate ex_predict ex_f 1 (ex_mains [ex_chunk 0; ex_short; ex_chunk 9000]) ex_kw ex_store.
Example C91_example_run : snd ex_run = None /\ length (rows_at (1, 2)%Z (fst ex_run)) = 198 /\ length (rows_at (1, 1)%Z (fst ex_run)) = 200 /\
  firstn 4 (rows_at (1, 2)%Z (fst ex_run)) = [(0, Some 2000); (60, Some 0); (120, Some 2000); (240, Some 2000)]%Z /\
  firstn 4 (rows_at (1, 3)%Z (fst ex_run)) = [(0, Some 100); (60, Some 100); (120, Some 100); (240, Some 100)]%Z /\
  st_root (fst ex_run) = Some (mk_rmeta 60 ex_name (Some 0, Some 15000)%Z).
Proof. vm_compute. repeat split. Qed.

(** The second of three chunks has no reading. *)
Definition ex_run_gap := f_disaggregate ex_predict ex_f 1 (ex_mains [ex_chunk 0; ex_gap 9000; ex_chunk 18000]) ex_kw ex_store.
Example C91_example_gap : is_long (ex_gap 9000) = true /\ present (ch_rows (ex_gap 9000)) = [] /\ snd ex_run_gap = Some ValueError /\
  length (rows_at (1, 2)%Z (fst ex_run_gap)) = 99 /\ length (rows_at (1, 1)%Z (fst ex_run_gap)) = 100 /\ st_root (fst ex_run_gap) = None.
Proof. vm_compute. repeat split. Qed.

(** Two buildings, trained across buildings on both appliances; the second has
    no fridge, and its good section is another one. *)
Definition ex_g : fh := mk_fh [(Typed "kettle", [0; 3999#2]%Q); (Typed "fridge", [0; 201#2]%Q)] [] (Some ["kettle"; "fridge"]%string).
Definition ex_b1 : building nat := mk_building (ex_mains [ex_chunk 0]) [ex_m2; ex_m3] (fun i => if (i =? 2)%Z then Ok ex_m2 else if (i =? 3)%Z then Ok ex_m3 else Err KeyError).
Definition ex_k5 := ex_meter 2 5 "kettle".
Definition ex_b2 : building nat := mk_building (mk_mains (Ok 1) (fun s p => if s =? 1 then ([ex_chunk 0], None) else ([], None))) [ex_k5] (fun i => if (i =? 5)%Z then Ok ex_k5 else Err KeyError).
Definition ex_b3 : building nat := mk_building (ex_mains [ex_chunk 0]) [ex_meter 3 2 "toaster"] (fun i => if (i =? 2)%Z then Ok (ex_meter 3 2 "toaster") else Err KeyError).
Definition ex_ds (b : Z) : option (building nat) := if (b =? 1)%Z then Some ex_b1 else if (b =? 2)%Z then Some ex_b2 else if (b =? 3)%Z then Some ex_b3 else None.
Definition ex_both (kw : kwargs nat) (bs : list Z) := f_across ex_predict ex_ds bs ex_g kw None ex_store.
Lemma ex_learnt_g : learnt ex_g.
Proof. split; [discriminate|]. repeat (constructor; [split; [discriminate|repeat constructor; cbv; discriminate]|]). constructor. Qed.
Lemma ex_usable_g t : usable ex_predict ex_g (ex_chunk t).
Proof.
  split; [discriminate|]. eexists. split; [reflexivity|]. split; [rewrite !map_length; reflexivity|]. apply Forall_forall. intros s H. exact (ex_bound _ s H).
Qed.
Example C91_example_across : prepared ex_predict ex_g 1 60 ex_store 2 ex_b2 [Some 5%Z; None] [ex_chunk 0] /\
  snd (ex_both (mk_kw None None (Some 1)) [1; 2]%Z) = None /\ length (rows_at (2, 5)%Z (snd (fst (ex_both (mk_kw None None (Some 1)) [1; 2]%Z)))) = 99.
Proof.
  split; [|vm_compute; repeat split]. split; [exists 1; reflexivity|]. split; [reflexivity|]. split; [repeat constructor; discriminate|].
  split; [intros m [<-|[]]; exists ex_k5; reflexivity|]. split.
  { constructor; [|constructor; [|constructor]]; cbn.
    - left. exists [], ex_k5, (ex_app "kettle"), [], []. repeat split. constructor.
    - right. split; [reflexivity|]. repeat constructor. exists (ex_app "kettle"), []. split; [reflexivity|discriminate]. }
  split; [split; [|split]|].
  - intros [|[|i]] [|[|j]] z; cbn; try reflexivity; try congruence; try (destruct i; discriminate); try (destruct j; discriminate).
  - cbn. intros [H|[H|[]]]; discriminate.
  - exists 5%Z. left. reflexivity.
  - split; [exists ex_name; split; [|split; [intros z _ t H; discriminate|intros t H; discriminate]]|split].
    + constructor; [|constructor]. intros _. split; [apply ex_usable_g|split; reflexivity].
    + constructor; [exists 0%Z, 6000%Z; repeat split; lia|constructor].
    + exact I.
Qed.

Example C91_example_across_metadata : numbered ex_b2 /\ chosen ex_b2 ["kettle"; "fridge"]%string ex_k5 /\
  get_meta 2%Z (st_buildings (snd (fst (ex_both (mk_kw None None (Some 1)) [1; 2]%Z)))) =
  Some (mk_bmeta [(1, mk_mmeta true None (2, 1) None (Some 0, Some 6000)); (5, mk_mmeta false (Some 1) (2, 5) None (Some 0, Some 6000))]%Z [([5], "kettle"%string, 1)]%Z).
Proof.
  split; [|split; [|vm_compute; reflexivity]].
  - split; [repeat constructor; intros []|]. split; [intros [H|[]]; discriminate|]. intros m [<-|[]]. reflexivity.
  - split; [left; reflexivity|]. exists "kettle"%string. split; [left; reflexivity|]. left. exists [], ex_k5, (ex_app "kettle"), [], []. repeat split. constructor.
Qed.

(** The second building's readings are lost, though alone it is disaggregated. *)
Example C91_example_sections : k_sections ex_kw = None /\ mn_good (bd_mains ex_b1) = Ok 0 /\ mn_good (bd_mains ex_b2) = Ok 1 /\
  snd (ex_both ex_kw [1; 2]%Z) = None /\ rows_at (2, 5)%Z (snd (fst (ex_both ex_kw [1; 2]%Z))) = [] /\ length (rows_at (2, 5)%Z (snd (fst (ex_both ex_kw [2]%Z)))) = 99.
Proof. vm_compute. repeat split. Qed.

Example C91_example_absent : Forall (fun w => goes_to ex_b3 w None) (map fst (f_ind ex_g)) /\ is_long (ex_chunk 0) = true /\ usable ex_predict ex_g (ex_chunk 0) /\
  snd (ex_both ex_kw [3; 1]%Z) = Some UnboundLocalError /\ st_tables (snd (fst (ex_both ex_kw [3; 1]%Z))) = [] /\
  snd (ex_both ex_kw [1; 3]%Z) = None.
Proof.
  split; [|split; [reflexivity|split; [apply ex_usable_g|vm_compute; repeat split]]].
  constructor; [|constructor; [|constructor]]; right; (split; [reflexivity|]); (constructor; [|constructor]); exists (ex_app "toaster"), []; (split; [reflexivity|discriminate]).
Qed.

(** An untrained object, and one trained across buildings. *)
Example C91_example_errors : snd (f_disaggregate ex_predict (mk_fh [] [] None) 1 (ex_mains [ex_chunk 0]) ex_kw ex_store) = Some RuntimeError /\
  map fst (f_ind ex_g) = [Typed "kettle"; Typed "fridge"]%string /\ snd (f_disaggregate ex_predict ex_g 1 (ex_mains [ex_chunk 0]) ex_kw ex_store) = Some AttributeError.
Proof. vm_compute. repeat split. Qed.
