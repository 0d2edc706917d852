(** Model of the row-delivery logic of the data stores:
    nilmtk/datastore/hdfdatastore.py (load, get_timeframe, _nrows,
    _timeframe_for_chunk), nilmtk/datastore/csvdatastore.py (load) and of
    nilmtk/electric.py:power_series_all_data.

    Simplifications:
    - a stored table is the list of its rows (timestamp, value); the [columns]
      argument (a projection of the value) and [verbose] are not modelled;
    - PyTables' [select(start, stop)] is the list slice, clamped to the table,
      and [select_as_coordinates] returns the positions of the rows satisfying
      the terms, in table order;
    - [chunksize] is at least 1 (0 makes [range] raise [ValueError], modelled;
      negative sizes are outside the model);
    - attributes set on DataFrames ([timeframe], [look_ahead]) are fields;
      [c_look = None] means that the attribute was not set. *)
From Verif Require Import Base TimeFrameModel.
Open Scope nat_scope.

Notation sample A := (Z * A)%type (only parsing).

(** A DataFrame as yielded by [load]. *)
Record chunk (A : Type) := mkChunk {
  c_rows : list (sample A);
  c_look : option (list (sample A));
  c_tf : tf
}.
Arguments mkChunk {A} _ _ _.
Arguments c_rows {A} _.
Arguments c_look {A} _.
Arguments c_tf {A} _.

(** [self.store.select(key, start=start, stop=stop)]. *)
Definition select {A} (rows : list A) (start stop : nat) : list A :=
  firstn (stop - start) (skipn start rows).

(** Positions (from [i] on) of the rows that satisfy the query terms. *)
Fixpoint coords_from {A} (i : nat) (q : option (option Z * option (Z * bool)))
  (rows : list (sample A)) : list nat :=
  match rows with
  | [] => []
  | r :: rest => if terms_hold q (fst r) then i :: coords_from (S i) q rest
                 else coords_from (S i) q rest
  end.

(** [int(np.ceil(n / c))] for c > 0; also [len(range(0, n, c))]. *)
Definition ceil_div (n c : nat) : nat := (n + (c - 1)) / c.

(** [range(start, stop, step)] for step > 0. *)
Definition py_range (start stop step : nat) : list nat :=
  map (fun k => start + k * step) (seq 0 (ceil_div (stop - start) step)).

(** hdfdatastore.py:321-342, [_timeframe_for_chunk]; [index[0]] and
    [index[-1]] raise [IndexError] on an empty index. *)
Definition timeframe_for_chunk (more : bool) (chunk_i : nat) (w : tf) (index : list Z) : res tf :=
  let start := if more then (if Nat.eqb chunk_i 0 then tf_start w else None)
               else if Nat.ltb 0 chunk_i then None else tf_start w in
  let end_ := if more then None else tf_end w in
  do s <- match start with
          | Some s => Ok s
          | None => match index with [] => Err IndexError | x :: _ => Ok x end
          end;
  do e <- match end_ with
          | Some e => Ok e
          | None => match last_opt index with None => Err IndexError | Some x => Ok x end
          end;
  mk (Some s) (Some e).

(** hdfdatastore.py:122-142: the look-ahead rows of a chunk. *)
Definition look_ahead_rows {A} (rows data : list (sample A)) (n_look chunk_end : nat)
  : option (list (sample A)) :=
  if Nat.ltb 0 n_look then
    match data with
    | [] => Some []
    | _ => Some (select rows chunk_end (chunk_end + n_look))
    end
  else None.

(** hdfdatastore.py:108-148: the loop over [enumerate(slice_starts)]. *)
Fixpoint hdf_chunks {A} (rows : list (sample A)) (w : tf) (n_look csize n_chunks section_end : nat)
  (chunk_i : nat) (starts : list nat) : gen (chunk A) :=
  match starts with
  | [] => ([], None)
  | st :: rest =>
      let chunk_end := st + csize in
      let more := Nat.ltb chunk_i (n_chunks - 1) in
      let chunk_end := if Nat.ltb section_end chunk_end then section_end else chunk_end in
      let chunk_end := S chunk_end in
      let data := select rows st chunk_end in
      let look := look_ahead_rows rows data n_look chunk_end in
      match timeframe_for_chunk more chunk_i w (map fst data) with
      | Err e => ([], Some e)
      | Ok t => gen_cons (mkChunk data look t)
                  (hdf_chunks rows w n_look csize n_chunks section_end (S chunk_i) rest)
      end
  end.

(** hdfdatastore.py:102-148: chunks of positions [section_start, section_end]. *)
Definition hdf_range {A} (rows : list (sample A)) (w : tf) (n_look csize s e : nat) : gen (chunk A) :=
  if Nat.eqb csize 0 then ([], Some ValueError) else
  hdf_chunks rows w n_look csize (ceil_div (e - s) csize) e 0 (py_range s e csize).

(** hdfdatastore.py:65-148: one section. *)
Definition hdf_load_section {A} (rows : list (sample A)) (window section : tf)
  (n_look csize : nat) : gen (chunk A) :=
  match intersection window section with
  | Err e => ([], Some e)
  | Ok w =>
      if tf_empty w then ([mkChunk [] None section], None) else
      match query_terms w with
      | Err e => ([], Some e)
      | Ok None =>
          let section_end := length rows in
          if Nat.leb section_end 1 then ([mkChunk [] None section], None)
          else hdf_range rows w n_look csize 0 section_end
      | Ok (Some q) =>
          match coords_from 0 (Some q) rows with
          | [] => ([mkChunk [] None w], None)
          | c0 :: cs =>
              match last_opt (c0 :: cs) with
              | None => ([], Some IndexError)
              | Some cl => hdf_range rows w n_look csize c0 cl
              end
          end
      end
  end.

(** hdfdatastore.py:32-148, [load]. *)
Fixpoint hdf_load {A} (rows : list (sample A)) (window : tf) (sections : list tf)
  (n_look csize : nat) : gen (chunk A) :=
  match sections with
  | [] => ([], None)
  | s :: rest => gen_app (hdf_load_section rows window s n_look csize)
                         (hdf_load rows window rest n_look csize)
  end.

(** hdfdatastore.py:47, [sections is None]. *)
Definition default_sections (sections : option (list tf)) : list tf :=
  match sections with None => [tf_cleared] | Some l => l end.

(** hdfdatastore.py:216-225, [get_timeframe]; an empty table raises
    [IndexError]. *)
Definition hdf_get_timeframe {A} (rows : list (sample A)) (window : tf) : res tf :=
  match rows, last_opt rows with
  | r0 :: _, Some rl => do t <- mk (Some (fst r0)) (Some (fst rl)); intersection window t
  | _, _ => Err IndexError
  end.

(** hdfdatastore.py:284-300, [_nrows].  [elif timeframe_intersect] is always
    true in Python 3 (no [__bool__]), so an unbounded frame passes [None]
    terms, which select every row. *)
Definition hdf_nrows {A} (rows : list (sample A)) (window : tf) (timeframe : option tf) : res nat :=
  do w <- intersection_opt window timeframe;
  if tf_empty w then Ok 0
  else do q <- query_terms w; Ok (length (coords_from 0 q rows)).

(** electric.py:103-120, [power_series_all_data] on the chunks of
    [power_series]: empty chunks are skipped; the first row of a chunk that
    starts no later than the previous chunk ends is dropped. *)
Fixpoint drop_overlaps {A} (prev_end : option Z) (chunks : list (list (sample A)))
  : list (list (sample A)) :=
  match chunks with
  | [] => []
  | c :: rest =>
      let c' := match prev_end, c with
                | Some p, x :: c1 => if (fst x <=? p)%Z then c1 else c
                | _, _ => c
                end in
      c' :: drop_overlaps (match last_opt c with Some x => Some (fst x) | None => None end) rest
  end.

Definition nonempty {A} (l : list A) : bool := match l with [] => false | _ => true end.

Definition power_series_all_data {A} (g : gen (chunk A)) : res (option (list (sample A))) :=
  match snd g with
  | Some e => Err e
  | None =>
      match filter nonempty (map c_rows (fst g)) with
      | [] => Ok None
      | chunks => Ok (Some (concat (drop_overlaps None chunks)))
      end
  end.

(** ** csvdatastore.py *)

(** csvdatastore.py:77-84: the mask of one file chunk. *)
Definition csv_mask (w : tf) (i : Z) : bool :=
  (match tf_start w with None => true | Some s => s <=? i end)%Z &&
  (match tf_end w with None => true | Some e => i <? e end)%Z &&
  negb (tf_empty w).

(** [np.max(np.nonzero(mask))]: position of the last selected row. *)
Fixpoint last_pos {A} (f : A -> bool) (i : nat) (l : list A) (acc : nat) : nat :=
  match l with
  | [] => acc
  | x :: r => last_pos f (S i) r (if f x then i else acc)
  end.

(** csvdatastore.py:70-105: the file's chunks.  The look-ahead skips the three
    header lines and all data rows up to the last selected one; [skiprows]
    beyond the end of the file raises [EmptyDataError], a [ValueError]. *)
Fixpoint csv_chunks {A} (fuel : nat) (all rest : list (sample A)) (w : tf) (n_look csize chunk_idx : nat)
  : gen (chunk A) :=
  match fuel with
  | O => ([], Some OutOfFuel)
  | S fuel' =>
      match rest with
      | [] => ([], None)
      | _ =>
          let ch := firstn csize rest in
          let sub := filter (fun r => csv_mask w (fst r)) ch in
          let next := csv_chunks fuel' all (skipn csize rest) w n_look csize (S chunk_idx) in
          match sub, last_opt sub with
          | x :: _, Some y =>
              match mk (Some (fst x)) (Some (fst y)) with
              | Err e => ([], Some e)
              | Ok t =>
                  let pos := last_pos (fun r => csv_mask w (fst r)) 0 ch 0 in
                  let from := chunk_idx * csize + pos + 1 in
                  let look := if Nat.ltb 0 n_look then Some (select all from (from + n_look)) else None in
                  gen_cons (mkChunk sub look t) next
              end
          | _, _ => next
          end
      end
  end.

(** csvdatastore.py:60-105: one section; [pd.read_csv] rejects a chunksize
    below 1 with [ValueError]. *)
Definition csv_load_section {A} (rows : list (sample A)) (window section : tf)
  (n_look csize : nat) : gen (chunk A) :=
  match intersection window section with
  | Err e => ([], Some e)
  | Ok w =>
      if Nat.eqb csize 0 then ([], Some ValueError) else
      csv_chunks (S (length rows)) rows rows w n_look csize 0
  end.

(** csvdatastore.py:47-105, [load]. *)
Fixpoint csv_load {A} (rows : list (sample A)) (window : tf) (sections : list tf)
  (n_look csize : nat) : gen (chunk A) :=
  match sections with
  | [] => ([], None)
  | s :: rest => gen_app (csv_load_section rows window s n_look csize)
                         (csv_load rows window rest n_look csize)
  end.
