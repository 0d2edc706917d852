(** Model of loading a MeterGroup (nilmtk/metergroup.py:640-723 and 1766-1863).

    A DataFrame is its index and its columns, each a series over that index.  Time zones with clock
    changes, the [timeframe] attribute and float32 rounding are left out. *)
From Coq Require Import QArith.
From Verif Require Import Base TimeFrameModel TopModel ColumnsModel ResampleModel.
Open Scope Z_scope.

Record gchunk := mkG { g_index : list Z; g_cols : list (column * samples) }.

(** measurement.py:12: voltage, pf, frequency, power factor and 'phase_angle', which is not the name of
    a quantity ('phase angle' is). *)
Definition to_average (q : pq) : bool := match q with Voltage | Pf | Frequency | PowerFactor => true | _ => false end.

(** metergroup.py:1826-1828: np.nansum of the two, NaN where both are. *)
Definition nan_add (a b : option Q) : option Q :=
  match a, b with
  | Some x, Some y => Some (x + y)%Q
  | Some x, None => Some x
  | None, b => b
  end.
Definition at_time (s : samples) (t : Z) : option Q :=
  match find (fun x => fst x =? t) s with Some x => snd x | None => None end.
Fixpoint distinct (l : list Z) : bool := match l with [] => true | x :: r => negb (existsb (Z.eqb x) r) && distinct r end.
(** [column.reindex(index)] raises ValueError if [column] has a time stamp twice. *)
Definition reindex (index : list Z) (s : samples) : res (list (option Q)) :=
  if distinct (map fst s) then Ok (map (at_time s) index) else Err ValueError.
Fixpoint zip_with {A B C} (f : A -> B -> C) (l : list A) (m : list B) : list C :=
  match l, m with x :: l', y :: m' => f x y :: zip_with f l' m' | _, _ => [] end.

(** metergroup.py:1815-1828: a column of the cumulator. *)
Definition find_column (col : column) (cols : list (column * samples)) : option samples :=
  match find (fun x => if column_dec (fst x) col then true else false) cols with Some x => Some (snd x) | None => None end.
Definition add_column (index : list Z) (c : gchunk) (x : column * list (option Q)) : res (column * list (option Q)) :=
  match find_column (fst x) (g_cols c) with
  | None => Ok x
  | Some s => do a <- reindex index s; Ok (fst x, zip_with nan_add (snd x) a)
  end.
(** metergroup.py:1806: [chunk.empty] (no rows or no columns).  [not chunk.timeframe] is never true in Python 3
    (timeframe.py:215 defines __nonzero__). *)
Definition g_empty (c : gchunk) : bool := match g_index c, g_cols c with [], _ => true | _, [] => true | _, _ => false end.
Definition has_quantity (q : pq) (c : gchunk) : bool := existsb (fun x => if pq_dec (fst (fst x)) q then true else false) (g_cols c).
Definition averages (c : gchunk) : bool := existsb (fun x => to_average (fst (fst x))) (g_cols c).
(** metergroup.py:1799-1842, one meter; [None]: its generator is at its end.  [set_ok]: whether
    pd.DataFrame(1, columns=<a set>) is accepted; since pandas 1.5 it raises ValueError. *)
Definition add_meter (set_ok : bool) (index : list Z) (cum : list (column * list (option Q))) (c : option gchunk) : res (list (column * list (option Q))) :=
  match c with
  | None => Ok cum
  | Some c =>
      if g_empty c then Ok cum else
      do cum' <- mapM (add_column index c) cum;
      if averages c && negb set_ok then Err ValueError else Ok cum'
  end.
Definition usable (cs : list (option gchunk)) : list gchunk :=
  flat_map (fun c => match c with Some c => if g_empty c then [] else [c] | None => [] end) cs.
(** columns_to_average_counter at a time stamp: the number of chunks with the quantity and a row at that time
    stamp. *)
Definition counter (cs : list gchunk) (q : pq) (t : Z) : nat := length (filter (fun c => has_quantity q c && existsb (Z.eqb t) (g_index c)) cs).
Definition divide_cell (n : nat) (x : option Q) : option Q := match n, x with S _, Some v => Some (v / inject_Z (Z.of_nat n))%Q | _, _ => None end.
(** metergroup.py:1849-1850.  An averaged quantity has no AC types, so
    that cumulator[column] is a series; KeyError if there is no such column. *)
Definition averaged_pqs : list pq := [Voltage; Pf; Frequency; PowerFactor].
Definition divide_columns (index : list Z) (cs : list gchunk) (cum : list (column * list (option Q))) : res (list (column * list (option Q))) :=
  let counted := filter (fun q => existsb (has_quantity q) cs) averaged_pqs in
  if forallb (fun q => existsb (fun x => if pq_dec (fst (fst x)) q then true else false) cum) counted then
    Ok (map (fun x => if in_dec pq_dec (fst (fst x)) counted then (fst x, zip_with (fun t v => divide_cell (counter cs (fst (fst x)) t) v) index (snd x)) else x) cum)
  else Err KeyError.
(** metergroup.py:1766-1863. *)
Definition combine_chunks (set_ok : bool) (index : list Z) (columns : list column) (cs : list (option gchunk)) : res (list (column * list (option Q))) :=
  do cum <- foldM (add_meter set_ok index) cs (map (fun col => (col, map (fun _ => None) index)) columns);
  divide_columns index (usable cs) cum.

(** A meter: the columns that it delivers for the request, its rows (one value per column) and its device's
    max_sample_period. *)
Record gmeter := mkGm { gm_cols : list column; gm_rows : list (Z * list (option Q)); gm_max_period : Z }.
Definition column_of (i : nat) (rows : list (Z * list (option Q))) : samples := map (fun x => (fst x, nth i (snd x) None)) rows.
Definition rows_in (s e : Z) (rows : list (Z * list (option Q))) : list (Z * list (option Q)) := filter (fun x => (s <=? fst x) && (fst x <? e)) rows.
(** elecmeter.py:420-468 and hdfdatastore.py:60-150: the first chunk for one section, resampled.  The section is
    assumed to fit in one chunk; no rows give an empty DataFrame, one row nothing
    ([range(i, i, chunksize)] is empty). *)
Definition meter_chunk (midnight : Z -> Z) (p s e : Z) (m : gmeter) : option gchunk :=
  match rows_in s e (gm_rows m) with
  | [] => Some (mkG [] [])
  | [_] => None
  | rows =>
      let cols := map (fun ic => (snd ic, safe_resample midnight p (ffill_limit (gm_max_period m) p) (column_of (fst ic) rows))) (combine (seq 0 (length (gm_cols m))) (gm_cols m)) in
      Some (mkG (match cols with x :: _ => map fst (snd x) | [] => [] end) cols)
  end.
(** metergroup.py:710-722, one section: the index is counted from the start of the bin of
    section.start (utils.py:332-339). *)
Definition section_index (midnight : Z -> Z) (p s e : Z) : list Z :=
  let b := bin (midnight s) p s in grid b p (Z.to_nat (- (- (e - b) / p))).
Definition load_section (set_ok : bool) (midnight : Z -> Z) (p : Z) (columns : list column) (ms : list gmeter) (s e : Z) : res (list Z * list (column * list (option Q))) :=
  let index := section_index midnight p s e in
  do out <- combine_chunks set_ok index columns (map (meter_chunk midnight p s e) ms);
  Ok (index, out).
(** metergroup.py:640-723, for sections given by start and end. *)
Fixpoint load_sections (set_ok : bool) (midnight : Z -> Z) (p : Z) (columns : list column) (ms : list gmeter) (l : list (Z * Z)) : gen (list Z * list (column * list (option Q))) :=
  match l with
  | [] => ([], None)
  | (s, e) :: r =>
      match load_section set_ok midnight p columns ms s e with
      | Ok x => gen_cons x (load_sections set_ok midnight p columns ms r)
      | Err er => ([], Some er)
      end
  end.
