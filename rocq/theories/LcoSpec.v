(** Vocabulary for the disaggregator that writes to a store. *)
From Coq Require Import String.
From Verif Require Import Base TimeFrameModel NearestModel NearestSpec LcoModel.
Import List.
Open Scope list_scope.
Open Scope nat_scope.

(** [pick] has one state of each appliance, and no such choice has a total
    closer to the reading (a larger total, for a missing reading). *)
Definition best (states : list (list Z)) (reading : option Z) (pick : list Z) : Prop :=
  combination states pick /\
  forall other, combination states other ->
    match reading with
    | Some t => (Z.abs (t - sumZ pick) <= Z.abs (t - sumZ other))%Z
    | None => (sumZ other <= sumZ pick)%Z
    end.

(** The columns of [frame] belong to the trained meters, in order, and together
    make the best choice of states for every reading. *)
Definition estimates (model : list entry) (mains : list (option Z)) (frame : list (meter * list Z)) : Prop :=
  map fst frame = map e_meter model /\
  exists picks, Forall2 (best (map e_states model)) mains picks /\
    forall i m col, nth_error frame i = Some (m, col) -> map (fun pick => nth_error pick i) picks = map Some col.

(** [cluster] finds at least one state. *)
Definition finds_states {C} (cluster : C -> Z -> option Z -> res (list Z)) : Prop :=
  forall ch k n s, cluster ch k n = Ok s -> s <> [].

(** A disaggregator after any sequence of training, disaggregation, export and
    import, including calls that raised. *)
Inductive reachable : co -> Prop :=
  | reach_new : reachable co_new
  | reach_train : forall C (cluster : C -> Z -> option Z -> res (list Z)) c n subs ns,
      finds_states cluster -> reachable c -> reachable (fst (train cluster c n subs ns))
  | reach_train_on_chunk : forall C (cluster : C -> Z -> option Z -> res (list Z)) c ch m k n c',
      finds_states cluster -> reachable c -> train_on_chunk cluster c ch m k n = Ok c' -> reachable c'
  | reach_chunk : forall argsort c mains, reachable c -> reachable (fst (disaggregate_chunk argsort c mains))
  | reach_disaggregate : forall argsort c b mains rs sp st, reachable c ->
      reachable (fst (fst (disaggregate argsort c b mains rs sp st)))
  | reach_import : forall c exported, reachable c -> reachable exported -> reachable (import_model c exported).

(** Chunks that are not skipped. *)
Definition is_long (ch : chunk) : bool := 100 <=? length (ch_rows ch).

Definition rows_at (k : key) (st : store) : list (Z * option Z) :=
  match lookup k (st_tables st) with Some t => snd t | None => [] end.

(** A table under this key is missing or has this layout. *)
Definition accepts (st : store) (k : key) (lay : layout) : Prop :=
  forall t, lookup k (st_tables st) = Some t -> fst t = lay.

Definition inst (e : entry) : Z := id_instance (m_id (e_meter e)).

(** The time stamps of a chunk with the estimates of column [i]. *)
Definition series (i : nat) (ch : chunk) (frame : list (meter * list Z)) : list (Z * option Z) :=
  match nth_error frame i with
  | Some (_, col) => combine (map fst (ch_rows ch)) (map Some col)
  | None => []
  end.

(** [series i] for all chunks, one after the other. *)
Fixpoint all_series (i : nat) (chs : list chunk) (frames : list (list (meter * list Z))) : list (Z * option Z) :=
  match chs, frames with
  | ch :: chs, f :: frames => series i ch f ++ all_series i chs frames
  | _, _ => []
  end.

Definition get_meta {V} (k : Z) (d : list (Z * V)) : option V :=
  match find (fun p => (k =? fst p)%Z) d with Some p => Some (snd p) | None => None end.

(** Trained meters have different instances, none of them that of the mains. *)
Definition own_keys (c : co) : Prop := NoDup (map inst (c_model c)) /\ ~ In 1%Z (map inst (c_model c)).

(** The chunks have one column, and the tables they go to accept it. *)
Definition fits (c : co) (b : Z) (st : store) (name : column) (dt : dtype) (chs : list chunk) : Prop :=
  Forall (fun ch => is_long ch = true -> ch_name ch = name /\ ch_dtype ch = dt) chs /\
  (forall e, In e (c_model c) -> accepts st (b, inst e) (name, float32)) /\
  accepts st (b, 1%Z) (name, dt).

(** What an uninterrupted sequence of chunks leaves in the tables. *)
Definition written (c : co) (b : Z) (st : store) (chs : list chunk) (frames : list (list (meter * list Z))) (st' : store) : Prop :=
  (forall i e, nth_error (c_model c) i = Some e -> rows_at (b, inst e) st' = rows_at (b, inst e) st ++ all_series i chs frames) /\
  rows_at (b, 1%Z) st' = rows_at (b, 1%Z) st ++ flat_map ch_rows chs /\
  (forall k, k <> (b, 1%Z) -> ~ In k (map (fun e => (b, inst e)) (c_model c)) ->
     lookup k (st_tables st') = lookup k (st_tables st)).

(** The sample period asked for: the old name of the argument wins, and one
    minute is the default. *)
Definition asked_period (resample_seconds sample_period : option Z) (p : Z) : Prop :=
  resample_seconds = Some p \/ resample_seconds = None /\ sample_period = Some p \/
  resample_seconds = None /\ sample_period = None /\ p = 60%Z.
