(** Model of the combinatorial optimisation disaggregator that writes its
    estimates to a data store: nilmtk/legacy/disaggregate/
    combinatorial_optimisation.py and the parts of nilmtk/legacy/disaggregate/
    disaggregator.py that it uses.

    Simplifications:
    - a meter is an [ElecMeter]: its identifier, name and appliances.  Two meters
      are equal if their identifiers are (hashable.py:6-16);
    - powers are integers and the conversion of predictions to float32 is not
      modelled, but the table layout remembers the dtype;
    - the chunks that [power_series] yields are an argument (a generator); so is
      the result of [cluster] (modelled in ClusterModel.v);
    - seconds and time stamps have the same unit (as in TimeFrameModel.v);
    - the key '/building{}/elec/meter{}' is the pair of the two numbers;
    - printing, warnings and the date in the metadata are not modelled. *)
From Coq Require Import String.
From Verif Require Import Base TimeFrameModel NearestModel.
Import List.
Open Scope list_scope.
Open Scope nat_scope.

(** elecmeter.py, [ElecMeterID]. *)
Record ident := mk_ident { id_instance : Z; id_building : Z; id_dataset : nat }.

(** Type and instance of an appliance (appliance.py, [ApplianceID]). *)
Record appliance := mk_appliance { ap_type : string; ap_instance : Z }.

Record meter := mk_meter { m_id : ident; m_name : option string; m_apps : list appliance }.

(** hashable.py:6-10. *)
Definition meter_eqb (a b : meter) : bool :=
  ((id_instance (m_id a) =? id_instance (m_id b))%Z && (id_building (m_id a) =? id_building (m_id b))%Z
   && (id_dataset (m_id a) =? id_dataset (m_id b)))%bool.

(** combinatorial_optimisation.py:107-109, one element of [self.model]. *)
Record entry := mk_entry { e_states : list Z; e_meter : meter }.

(** combinatorial_optimisation.py:36-40: [self.model] and
    [self.state_combinations] (an array: number of columns, rows). *)
Record co := mk_co { c_model : list entry; c_combos : option (nat * list (list Z)) }.

(** combinatorial_optimisation.py:36-40, [__init__]. *)
Definition co_new : co := mk_co [] None.

(** combinatorial_optimisation.py:39. *)
Definition MIN_CHUNK_LENGTH : nat := 100.

Section Train.
  (** The chunks of training data and [feature_detectors.cluster]. *)
  Context {C : Type} (cluster : C -> Z -> option Z -> res (list Z)).

  (** combinatorial_optimisation.py:97-109, [train_on_chunk]. *)
  Definition train_on_chunk (c : co) (chunk : C) (m : meter) (max_num_clusters : Z) (num_on_states : option Z) : res co :=
    if existsb (meter_eqb m) (map e_meter (c_model c)) then Err RuntimeError
    else
      do states <- cluster chunk max_num_clusters num_on_states;
      Ok (mk_co (c_model c ++ [mk_entry states m]) (c_combos c)).

  (** combinatorial_optimisation.py:71-93, the loop of [train]; the changed
      model stays when it raises.  [next] on an exhausted generator raises
      [StopIteration]; the second one is caught if it does. *)
  Fixpoint train_loop (c : co) (max_num_clusters : Z) (num_states : meter -> option Z) (subs : list (meter * gen C))
    : co * option exn :=
    match subs with
    | [] => (c, None)
    | (m, (chunks, e)) :: r =>
        match chunks with
        | [] => (c, Some (match e with Some x => x | None => StopIteration end))
        | chunk :: rest =>
            let num_on_states := match num_states m with Some n => Some (n - 1)%Z | None => None end in
            match train_on_chunk c chunk m max_num_clusters num_on_states with
            | Err x => (c, Some x)
            | Ok c' =>
                match rest, e with
                | _ :: _, _ | [], None | [], Some StopIteration => train_loop c' max_num_clusters num_states r
                | [], Some x => (c', Some x)
                end
            end
        end
    end.

  (** combinatorial_optimisation.py:42-95, [train]: [num_meters] is
      [len(metergroup.meters)] and [subs] are the meters of
      [metergroup.submeters()] with what their [power_series] yields. *)
  Definition train (c : co) (num_meters : nat) (subs : list (meter * gen C)) (num_states : meter -> option Z) : co * option exn :=
    match c_model c with
    | _ :: _ => (c, Some RuntimeError)
    | [] => train_loop c (if 12 <? num_meters then 2%Z else 3%Z) num_states subs
    end.
End Train.

(** combinatorial_optimisation.py:111-118,
    [_set_state_combinations_if_necessary]. *)
Definition set_combos (c : co) : co :=
  let fresh := mk_co (c_model c) (Some (length (c_model c), cartesian (map e_states (c_model c)))) in
  match c_combos c with
  | None => fresh
  | Some (w, _) => if w =? length (c_model c) then c else fresh
  end.

(** [d[meter] = column] on a dict with meters as keys. *)
Fixpoint put_column (d : list (meter * list Z)) (m : meter) (col : list Z) : list (meter * list Z) :=
  match d with
  | [] => [(m, col)]
  | (m', col') :: r => if meter_eqb m m' then (m', col) :: r else (m', col') :: put_column r m col
  end.

(** combinatorial_optimisation.py:222-230, the loop that fills
    [appliance_powers_dict]; [i] is the index of the first element of [l]. *)
Fixpoint predict_columns (rows : list (list Z)) (indices : list nat) (i : nat) (l : list entry) (d : list (meter * list Z))
  : res (list (meter * list Z)) :=
  match l with
  | [] => Ok d
  | e :: r =>
      do col <- mapM (fun ix => do row <- get rows ix; get row i) indices;
      predict_columns rows indices (S i) r (put_column d (e_meter e) col)
  end.

(** combinatorial_optimisation.py:173-231, [disaggregate_chunk]: the changed
    object, and one column per key of the dict.  [argsort] is [np.argsort]
    (see NearestModel.v). *)
Definition disaggregate_chunk (argsort : list Z -> list nat) (c : co) (mains : list (option Z))
  : co * res (list (meter * list Z)) :=
  match c_model c with
  | [] => (c, Err RuntimeError)
  | _ :: _ =>
      if length mains <? MIN_CHUNK_LENGTH then (c, Err RuntimeError)
      else
        let c' := set_combos c in
        let rows := match c_combos c' with Some (_, rows) => rows | None => [] end in
        let sums := map sumZ rows in
        (c', do found <- find_nearest sums (argsort sums) mains;
             predict_columns rows (map fst found) 0 (c_model c') [])
  end.

(** ** The output store *)

(** The single column of a table: (physical quantity, type). *)
Definition column := (string * string)%type.
Inductive dtype := float32 | float64.
Definition layout := (column * dtype)%type.

Definition column_eqb (a b : column) : bool := (String.eqb (fst a) (fst b) && String.eqb (snd a) (snd b))%bool.
Definition dtype_eqb (a b : dtype) : bool :=
  match a, b with float32, float32 | float64, float64 => true | _, _ => false end.
Definition layout_eqb (a b : layout) : bool := (column_eqb (fst a) (fst b) && dtype_eqb (snd a) (snd b))%bool.

(** '/building{}/elec/meter{}': building, meter instance. *)
Definition key := (Z * Z)%type.
Definition key_eqb (a b : key) : bool := ((fst a =? fst b)%Z && (snd a =? snd b)%Z)%bool.

(** Rows: time stamp and value ([None] is NaN). *)
Definition table := (layout * list (Z * option Z))%type.

(** disaggregator.py:168-179 and 183-196, the metadata of one meter. *)
Record mmeta := mk_mmeta {
  mm_site_meter : bool;
  mm_submeter_of : option Z;
  mm_location : key;
  mm_name : option string;
  mm_frame : option Z * option Z
}.

(** disaggregator.py:236-240: the dict [elec_meters] (in order of insertion) and
    the list [appliances] (meters, type, instance). *)
Record bmeta := mk_bmeta { b_meters : list (Z * mmeta); b_apps : list (list Z * string * Z) }.

(** disaggregator.py:131-163: sample period, measurement and time frame. *)
Record rmeta := mk_rmeta { r_period : Z; r_measure : column; r_frame : option Z * option Z }.

Record store := mk_store {
  st_tables : list (key * table);
  st_root : option rmeta;
  st_buildings : list (Z * bmeta)
}.

Definition lookup (k : key) (l : list (key * table)) : option table :=
  match find (fun p => key_eqb k (fst p)) l with Some p => Some (snd p) | None => None end.

Fixpoint add_rows (l : list (key * table)) (k : key) (lay : layout) (rows : list (Z * option Z)) : res (list (key * table)) :=
  match l with
  | [] => Ok [(k, (lay, rows))]
  | (k', (lay', rows')) :: r =>
      if key_eqb k k' then
        if layout_eqb lay lay' then Ok ((k', (lay', rows' ++ rows)) :: r) else Err ValueError
      else do r' <- add_rows r k lay rows; Ok ((k', (lay', rows')) :: r')
  end.

(** datastore/hdfdatastore.py:151-165, [append]: a table with another column or
    dtype raises [ValueError] (pandas). *)
Definition append (st : store) (k : key) (lay : layout) (rows : list (Z * option Z)) : res store :=
  do t <- add_rows (st_tables st) k lay rows; Ok (mk_store t (st_root st) (st_buildings st)).

(** [d[k] = v] for a dict with integer keys. *)
Fixpoint dict_set {V} (d : list (Z * V)) (k : Z) (v : V) : list (Z * V) :=
  match d with
  | [] => [(k, v)]
  | (k', v') :: r => if (k =? k')%Z then (k', v) :: r else (k', v') :: dict_set r k v
  end.

(** disaggregator.py:181-196, 199-221, the metadata of a trained meter; an empty
    name is not stored (lines 217-219). *)
Definition submeter_meta (building : Z) (frame : option Z * option Z) (m : meter) : mmeta :=
  let i := id_instance (m_id m) in
  mk_mmeta false (Some 1%Z) (building, i)
    (match m_name m with Some EmptyString => None | n => n end) frame.

(** disaggregator.py:165-240 with [supervised=True]. *)
Definition building_meta (building : Z) (frame : option Z * option Z) (meters : list meter) : bmeta :=
  let mains := mk_mmeta true None (building, 1%Z) None frame in
  mk_bmeta
    (fold_left (fun d m => dict_set d (id_instance (m_id m)) (submeter_meta building frame m)) meters [(1%Z, mains)])
    (flat_map (fun m => map (fun a => ([id_instance (m_id m)], ap_type a, ap_instance a)) (m_apps m)) meters).

(** disaggregator.py:95-242, [_save_metadata_for_disaggregation]. *)
Definition save_metadata (st : store) (period : Z) (measure : column) (frames : list tf) (building : Z) (meters : list meter)
  : res store :=
  do merged <- merge_timeframes frames period;
  match merged, last_opt merged with
  | first :: _, Some last =>
      do total <- mk (tf_start first) (tf_end last);
      let frame := to_dict total in
      Ok (mk_store (st_tables st) (Some (mk_rmeta period measure frame))
            (dict_set (st_buildings st) building (building_meta building frame meters)))
  | _, _ => Err IndexError
  end.

(** ** [disaggregate] *)

(** A chunk of mains power: its [timeframe], [name], dtype and rows. *)
Record chunk := mk_chunk { ch_frame : tf; ch_name : column; ch_dtype : dtype; ch_rows : list (Z * option Z) }.

(** combinatorial_optimisation.py:154-164, the loop over the model; [i] is the
    index of the first element of [l].  [appliance_powers.iloc[:, i]] raises
    [IndexError] if there is no such column.  The branch for an empty column
    is not taken: columns are as long as the chunk, at least 100. *)
Fixpoint write_appliances (st : store) (building : Z) (ch : chunk) (powers : list (meter * list Z)) (i : nat) (l : list entry)
  : store * option exn :=
  match l with
  | [] => (st, None)
  | e :: r =>
      match nth_error powers i with
      | None => (st, Some IndexError)
      | Some (_, col) =>
          match append st (building, id_instance (m_id (e_meter e))) (ch_name ch, float32)
                  (combine (map fst (ch_rows ch)) (map Some col)) with
          | Err x => (st, Some x)
          | Ok st' => write_appliances st' building ch powers (S i) r
          end
      end
  end.

(** Local variables of [disaggregate]. *)
Record run := mk_run { ru_co : co; ru_store : store; ru_frames : list tf; ru_measure : option column }.

(** combinatorial_optimisation.py:143-168, one iteration. *)
Definition step (argsort : list Z -> list nat) (building : Z) (s : run) (ch : chunk) : run * option exn :=
  if length (ch_rows ch) <? MIN_CHUNK_LENGTH then (s, None)
  else
    let frames := ru_frames s ++ [ch_frame ch] in
    let measure := Some (ch_name ch) in
    let '(c, powers) := disaggregate_chunk argsort (ru_co s) (map snd (ch_rows ch)) in
    match powers with
    | Err x => (mk_run c (ru_store s) frames measure, Some x)
    | Ok powers =>
        let '(st, x) := write_appliances (ru_store s) building ch powers 0 (c_model c) in
        match x with
        | Some x => (mk_run c st frames measure, Some x)
        | None =>
            match append st (building, 1%Z) (ch_name ch, ch_dtype ch) (ch_rows ch) with
            | Err x => (mk_run c st frames measure, Some x)
            | Ok st' => (mk_run c st' frames measure, None)
            end
        end
    end.

(** combinatorial_optimisation.py:143-168, the loop over what
    [mains.power_series] yields; [e] is what ends that generator. *)
Fixpoint steps (argsort : list Z -> list nat) (building : Z) (s : run) (chunks : list chunk) (e : option exn) : run * option exn :=
  match chunks with
  | [] => (s, e)
  | ch :: r =>
      let '(s', x) := step argsort building s ch in
      match x with Some _ => (s', x) | None => steps argsort building s' r e end
  end.

(** disaggregator.py:88-91 and combinatorial_optimisation.py:135. *)
Definition sample_period (resample_seconds sample_period : option Z) : Z :=
  match resample_seconds with
  | Some p => p
  | None => match sample_period with Some p => p | None => 60 end
  end.

(** combinatorial_optimisation.py:120-178, [disaggregate] for mains of the given
    building; an error in [mains.good_sections()] (line 136) counts as an error
    of the generator.  [data_is_available] is true once a chunk has been
    written, that is, once [measurement] is bound. *)
Definition disaggregate (argsort : list Z -> list nat) (c : co) (building : Z) (mains : gen chunk) (resample_seconds period : option Z)
  (st : store) : co * store * option exn :=
  match c_model c with
  | [] => (c, st, Some RuntimeError)
  | _ :: _ =>
      let '(s, x) := steps argsort building (mk_run c st [] None) (fst mains) (snd mains) in
      match x with
      | Some x => (ru_co s, ru_store s, Some x)
      | None =>
          match ru_measure s with
          | None => (ru_co s, ru_store s, None)
          | Some measure =>
              match save_metadata (ru_store s) (sample_period resample_seconds period) measure (ru_frames s) building
                      (map e_meter (c_model (ru_co s))) with
              | Err x => (ru_co s, ru_store s, Some x)
              | Ok st' => (ru_co s, st', None)
              end
          end
      end
  end.

(** combinatorial_optimisation.py:233-262, [export_model] followed by
    [import_model] on another object: [model] and [state_combinations] are
    copied (the pickle is assumed faithful; the reopened training stores are
    not modelled). *)
Definition import_model (c exported : co) : co := mk_co (c_model exported) (c_combos exported).
