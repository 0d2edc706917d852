(** Model of the factorial HMM disaggregator that writes its estimates to a
    data store: nilmtk/legacy/disaggregate/fhmm_exact.py.

    Simplifications (besides those of LcoModel.v, whose meters, chunks and
    output store are used here):
    - of the learnt models only the means matter; [predict] is hmmlearn's most
      likely state sequence of the combined model (or the exception it raises);
    - [len(chunk.name)], printing and warnings are left out;
    - the sections to load are of any type [S]; what [mains.good_sections()]
      returns, what [mains.power_series] yields for some sections and sample
      period, and [elec[instance]] are arguments;
    - a building has mains, whose [building()] is its number. *)
From Coq Require Import String QArith.
From Verif Require Import Base TimeFrameModel LcoModel.
From Verif Require FhmmModel.
Import List.
Open Scope list_scope.
Open Scope nat_scope.

(** A key of [self.individual]: a meter after [train] (fhmm_exact.py:349-365), a
    type of appliance after [train_across_buildings] (:258-269). *)
Inductive who := Trained (m : meter) | Typed (t : string).

(** [self.individual] (means only; empty before training, when [self.model] is
    [{}]), [self.meters] and [self.list_of_appliances]. *)
Record fh := mk_fh { f_ind : list (who * list Q); f_meters : list meter; f_apps : option (list string) }.

(** [test_mains.dropna()] *)
Definition dropna (rows : list (Z * option Z)) : list (Z * Z) :=
  flat_map (fun r => match snd r with Some v => [(fst r, v)] | None => [] end) rows.

(** fhmm_exact.py:386-390: the means, rounded and sorted. *)
Definition centroids (f : fh) : list (list Z) :=
  map (fun kv => FhmmModel.sortZ (map FhmmModel.round_even (snd kv))) (f_ind f).

(** fhmm_exact.py:368-404, [disaggregate_chunk]: the index and the columns of
    the predictions. *)
Definition f_chunk (predict : list Z -> res (list nat)) (f : fh) (rows : list (Z * option Z)) : res (list Z * list (who * list Z)) :=
  let present := dropna rows in
  do states <- predict (map snd present);
  do decoded <- FhmmModel.decode_hmm (centroids f) states;
  if length decoded =? length present then
    do cols <- mapM (fun i => mapM (fun row => do x <- FhmmModel.item row i; Ok (snd x)) decoded) (seq 0 (length (f_ind f)));
    Ok (map fst present, combine (map fst (f_ind f)) cols)
  else Err ValueError.

(** Local variables of the two methods. *)
Record lrun := mk_lrun {
  l_store : store;
  l_frames : list tf;
  l_measure : option column;
  l_cols : option column;
  l_avail : bool
}.
Definition set_store (s : lrun) (st : store) : lrun := mk_lrun st (l_frames s) (l_measure s) (l_cols s) (l_avail s).

(** fhmm_exact.py:442-453 and 518-535, the loop over the columns; [inst_of] gives
    the instance of the meter, [None] if the column is skipped. *)
Fixpoint write_columns (inst_of : who -> res (option Z)) (b : Z) (ch : chunk) (times : list Z) (cols : list (who * list Z)) (s : lrun)
  : lrun * option exn :=
  match cols with
  | [] => (s, None)
  | (w, col) :: r =>
      match inst_of w with
      | Err x => (s, Some x)
      | Ok None => write_columns inst_of b ch times r s
      | Ok (Some i) =>
          let s := mk_lrun (l_store s) (l_frames s) (l_measure s) (Some (ch_name ch)) (l_avail s) in
          if length times =? 0 then write_columns inst_of b ch times r s
          else
            let s := mk_lrun (l_store s) (l_frames s) (l_measure s) (l_cols s) true in
            match append (l_store s) (b, i) (ch_name ch, float64) (combine times (map Some col)) with
            | Err x => (s, Some x)
            | Ok st => write_columns inst_of b ch times r (set_store s st)
            end
      end
  end.

(** fhmm_exact.py:455-457 and 537-539: the mains readings.  [cols] may be unbound,
    or that of another chunk; if it has another name the outcome is pandas's
    (here [GenericException]). *)
Definition write_mains (b : Z) (ch : chunk) (dt : dtype) (s : lrun) : lrun * option exn :=
  match l_cols s with
  | None => (s, Some UnboundLocalError)
  | Some c =>
      if column_eqb c (ch_name ch) then
        match append (l_store s) (b, 1%Z) (ch_name ch, dt) (ch_rows ch) with
        | Err x => (s, Some x)
        | Ok st => (set_store s st, None)
        end
      else (s, Some GenericException)
  end.

(** fhmm_exact.py:430-457 and 507-539, one chunk; [force] is the dtype of the mains
    readings, if it is given (line 539). *)
Definition f_step (predict : list Z -> res (list nat)) (f : fh) (inst_of : who -> res (option Z)) (force : option dtype) (b : Z) (s : lrun) (ch : chunk)
  : lrun * option exn :=
  if length (ch_rows ch) <? 100 then (s, None)
  else
    let s := mk_lrun (l_store s) (l_frames s ++ [ch_frame ch]) (Some (ch_name ch)) (l_cols s) (l_avail s) in
    match f_chunk predict f (ch_rows ch) with
    | Err x => (s, Some x)
    | Ok (times, cols) =>
        match write_columns inst_of b ch times cols s with
        | (s, Some x) => (s, Some x)
        | (s, None) => write_mains b ch (match force with Some d => d | None => ch_dtype ch end) s
        end
    end.

Fixpoint f_steps (predict : list Z -> res (list nat)) (f : fh) (inst_of : who -> res (option Z)) (force : option dtype) (b : Z) (s : lrun) (chs : list chunk) (e : option exn)
  : lrun * option exn :=
  match chs with
  | [] => (s, e)
  | ch :: r =>
      match f_step predict f inst_of force b s ch with
      | (s, Some x) => (s, Some x)
      | (s, None) => f_steps predict f inst_of force b s r e
      end
  end.

(** fhmm_exact.py:459-467 and 541-549. *)
Definition f_finish (period : Z) (b : Z) (meters : list meter) (s : lrun) : store * option exn :=
  if l_avail s then
    match l_measure s with
    | None => (l_store s, Some UnboundLocalError)
    | Some m => match save_metadata (l_store s) period m (l_frames s) b meters with
                | Err x => (l_store s, Some x)
                | Ok st => (st, None)
                end
    end
  else (l_store s, None).

Section Run.
  Context {S : Type}.

  (** [load_kwargs]: 'resample_seconds', 'sample_period', 'sections'. *)
  Record kwargs := mk_kw { k_resample : option Z; k_period : option Z; k_sections : option S }.

  (** disaggregator.py:80-93, [_pre_disaggregation_checks]. *)
  Definition pre_checks (f : fh) (kw : kwargs) : res kwargs :=
    match f_ind f with
    | [] => Err RuntimeError
    | _ :: _ => Ok (match k_resample kw with
                    | Some p => mk_kw None (Some p) (k_sections kw)
                    | None => kw
                    end)
    end.
  (** [setdefault] of the two arguments. *)
  Definition with_defaults (kw : kwargs) (good : S) : kwargs :=
    mk_kw (k_resample kw) (match k_period kw with Some p => Some p | None => Some 60%Z end)
      (match k_sections kw with Some s => Some s | None => Some good end).

  (** The mains of a building. *)
  Record mains := mk_mains { mn_good : res S; mn_power : S -> Z -> gen chunk }.

  (** [mains.power_series] of [load_kwargs] once the defaults are set. *)
  Definition power (m : mains) (kw : kwargs) : gen chunk :=
    match k_sections kw, k_period kw with
    | Some s, Some p => mn_power m s p
    | _, _ => ([], Some KeyError)
    end.
  Definition period_of (kw : kwargs) : Z := match k_period kw with Some p => p | None => 60%Z end.

  (** [meter.instance()]; a type of appliance has no [instance]. *)
  Definition own_instance (w : who) : res (option Z) :=
    match w with Trained m => Ok (Some (id_instance (m_id m))) | Typed _ => Err AttributeError end.

  (** fhmm_exact.py:407-467, [disaggregate]. *)
  Definition f_disaggregate (predict : list Z -> res (list nat)) (f : fh) (b : Z) (m : mains) (kw : kwargs) (st : store) : store * option exn :=
    match (do kw <- pre_checks f kw; do good <- mn_good m; Ok (with_defaults kw good)) with
    | Err x => (st, Some x)
    | Ok kw =>
        let g := power m kw in
        match f_steps predict f own_instance None b (mk_lrun st [] None None false) (fst g) (snd g) with
        | (s, Some x) => (l_store s, Some x)
        | (s, None) => f_finish (period_of kw) b (f_meters f) s
        end
    end.

  (** ** Several buildings *)

  (** The mains, the submeters and [elec[instance]]. *)
  Record building := mk_building { bd_mains : mains; bd_subs : list meter; bd_item : Z -> res meter }.

  (** fhmm_exact.py:477-483, [get_meter_instance]. *)
  Fixpoint get_meter_instance (subs : list meter) (t : string) : res Z :=
    match subs with
    | [] => Ok (-1)%Z
    | m :: r => match m_apps m with
                | [] => Err IndexError
                | a :: _ => if String.eqb (ap_type a) t then Ok (id_instance (m_id m)) else get_meter_instance r t
                end
    end.
  (** fhmm_exact.py:520-526: the instance for a column. *)
  Definition instance_in (bd : building) (w : who) : res (option Z) :=
    match w with
    | Trained m => Ok (Some (id_instance (m_id m)))
    | Typed t => do i <- get_meter_instance (bd_subs bd) t; Ok (if (i =? -1)%Z then None else Some i)
    end.
  (** fhmm_exact.py:498-505: [self.meters], also when it raises. *)
  Fixpoint meters_of (bd : building) (apps : list string) (acc : list meter) : list meter * option exn :=
    match apps with
    | [] => (acc, None)
    | t :: r => match get_meter_instance (bd_subs bd) t with
                | Err x => (acc, Some x)
                | Ok i => if (i =? -1)%Z then meters_of bd r acc
                          else match bd_item bd i with
                               | Err x => (acc, Some x)
                               | Ok m => meters_of bd r (acc ++ [m])
                               end
                end
    end.

  (** fhmm_exact.py:485-549, the loop over the buildings: [self.meters] and the store
      afterwards.  [load_kwargs] and [cols] are carried from one building to
      the next. *)
  Fixpoint f_across (predict : list Z -> res (list nat)) (ds : Z -> option building) (bs : list Z) (f : fh) (kw : kwargs) (cols : option column) (st : store)
    : list meter * store * option exn :=
    match bs with
    | [] => (f_meters f, st, None)
    | b :: r =>
        match ds b with
        | None => (f_meters f, st, Some KeyError)
        | Some bd =>
            match (do kw <- pre_checks f kw; do good <- mn_good (bd_mains bd); Ok (with_defaults kw good)) with
            | Err x => (f_meters f, st, Some x)
            | Ok kw =>
                match f_apps f with
                | None => ([], st, Some AttributeError)
                | Some apps =>
                    match meters_of bd apps [] with
                    | (ms, Some x) => (ms, st, Some x)
                    | (ms, None) =>
                        let g := power (bd_mains bd) kw in
                        match f_steps predict f (instance_in bd) (Some float32) b (mk_lrun st [] None cols false) (fst g) (snd g) with
                        | (s, Some x) => (ms, l_store s, Some x)
                        | (s, None) =>
                            match f_finish (period_of kw) b ms s with
                            | (st, Some x) => (ms, st, Some x)
                            | (st, None) => f_across predict ds r (mk_fh (f_ind f) ms (f_apps f)) kw (l_cols s) st
                            end
                        end
                    end
                end
            end
        end
    end.
End Run.
Arguments mk_kw {S}. Arguments kwargs : clear implicits. Arguments mains : clear implicits. Arguments building : clear implicits.
