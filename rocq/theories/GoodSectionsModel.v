(** Model of nilmtk/stats/goodsections.py and nilmtk/stats/goodsectionsresults.py.

    Simplifications:
    - a row of the DataFrame is (timestamp, valid), where [valid] says that no
      column is NaN: [dropna] is a filter;
    - [max_sample_period] is in the unit of the timestamps; conversions to
      seconds and [gc] calls are not modelled;
    - pandas' [sort_index] is a stable sort;
    - metadata and requirement checks of [process] are not modelled. *)
From Verif Require Import Base TimeFrameModel SortLib ResultsModel StoreModel.
Open Scope Z_scope.

(** [df.dropna().sort_index().index], goodsections.py:96. *)
Definition valid_index (df : list (sample bool)) : list Z :=
  sort_by (fun i => Some i) (map fst (filter snd df)).

(** [np.diff(index)], goodsections.py:102. *)
Fixpoint diffs (l : list Z) : list Z :=
  match l with
  | a :: ((b :: _) as r) => (b - a) :: diffs r
  | _ => []
  end.

Definition b2z (b : bool) : Z := if b then 1 else 0.

(** goodsections.py:109-112: [diff(concatenate([[previous], check]).astype(int))]. *)
Fixpoint transitions (prev : bool) (checks : list bool) : list Z :=
  match checks with
  | [] => []
  | c :: r => (b2z c - b2z prev) :: transitions c r
  end.

(** goodsections.py:119-120: [list(index[:-1][transitions == v])]; the list of
    transitions is one shorter than the index. *)
Definition at_transition (v : Z) (index : list Z) (tr : list Z) : list Z :=
  map fst (filter (fun p => snd p =? v) (combine index tr)).

(** goodsections.py:129-132: gap from the last sample to the first valid
    look-ahead row; [None] if there is no look-ahead.  [index[0]] of a
    look-ahead with only NaNs raises [IndexError]. *)
Definition look_gap (look : option (list (sample bool))) (last_index : Z) : res (option Z) :=
  match look with
  | None => Ok None
  | Some [] => Ok None
  | Some l => match filter snd l with
              | [] => Err IndexError
              | x :: _ => Ok (Some (fst x - last_index))
              end
  end.

(** [not (start == end and start is not None)], goodsections.py:170. *)
Definition keep_section (p : option Z * option Z) : bool :=
  match p with
  | (Some a, Some b) => negb (a =? b)
  | _ => true
  end.

(** goodsections.py:78-177, [get_good_sections]. *)
Definition get_good_sections (df : list (sample bool)) (msp : Z)
  (look : option (list (sample bool))) (prev : bool) : res (list tf) :=
  let index := valid_index df in
  if (Nat.ltb (length index) 2) then Ok [] else
  let checks := map (fun d => d <=? msp) (diffs index) in
  let tr := transitions prev checks in
  match last_opt checks, last_opt index with
  | Some last_check, Some last_index =>
      let starts := at_transition 1 index tr in
      let ends := at_transition (-1) index tr in
      do gap <- look_gap look last_index;
      let '(starts, ends) :=
        if last_check : bool then
          match gap with
          | Some g => if g >? msp then (starts, ends ++ [last_index]) else (starts, ends)
          | None => (starts, ends ++ [last_index])
          end
        else
          match gap with
          | Some g => if g <=? msp then (starts ++ [last_index], ends) else (starts, ends)
          | None => (starts, ends)
          end in
      let open :=
        match last_opt ends, last_opt starts with
        | None, Some _ => true
        | None, None => prev
        | Some e, Some s => e <? s
        | Some _, None => false
        end in
      let starts := (if prev then [None] else []) ++ map Some starts in
      let ends := map Some ends ++ (if open : bool then [None] else []) in
      if negb (Nat.eqb (length starts) (length ends)) then Err AssertionError
      else mapM (fun p => mk (fst p) (snd p)) (filter keep_section (combine starts ends))
  | _, _ => Err IndexError
  end.

(** goodsections.py:35-75, [_process_chunk]: the flag
    [previous_chunk_ended_with_open_ended_good_section] and the results. *)
Definition gs_state := (bool * table (list tf))%type.

Definition gs_process_chunk (msp : Z) (st : gs_state) (ch : chunk bool) : res gs_state :=
  let '(prev, data) := st in
  do secs <- get_good_sections (c_rows ch) msp (c_look ch) prev;
  match last_opt secs with
  | None => Ok (prev, data)
  | Some l =>
      do data' <- results_append data (c_tf ch) secs;
      Ok (match tf_end l with None => true | Some _ => false end, data')
  end.

(** goodsections.py:26-33, [process] run to exhaustion on a new node. *)
Definition gs_process (msp : Z) (chunks : gen (chunk bool)) : res (table (list tf)) :=
  do st <- foldM (gs_process_chunk msp) (fst chunks) (false, []);
  match snd chunks with
  | Some e => Err e
  | None => Ok (snd st)
  end.

(** ** goodsectionsresults.py *)

(** Assignment to the last element of a list. *)
Fixpoint set_last {A} (l : list A) (v : A) : list A :=
  match l with
  | [] => []
  | [_] => [v]
  | x :: r => x :: set_last r v
  end.

(** [combined] mutates the stored sections: the list it returns consists of
    the very objects held by the rows.  [done] is the list of rows already
    visited, whose sections make up the list [sections]. *)
Definition all_sections (done : table (list tf)) : list tf := concat (map r_val done).

(** Change the last object of [sections] where it is stored: in the last row
    that has a section. *)
Fixpoint set_last_section (done : table (list tf)) (t : tf) : table (list tf) :=
  match done with
  | [] => []
  | r :: rest =>
      if match all_sections rest with [] => true | _ => false end
      then mkRow (r_start r) (r_end r) (set_last (r_val r) t) :: rest
      else r :: set_last_section rest t
  end.

(** goodsectionsresults.py:55-58: [end_prev - max_sample_period <= index <= end_prev]. *)
Definition rows_adjacent (msp : Z) (end_prev index : Z) : bool :=
  (end_prev - msp <=? index) && (index <=? end_prev).

(** goodsectionsresults.py:53-76: the two branches for a row that is not the
    first; the rows visited so far and the row's sections afterwards.  A NaT
    'end' or index is outside the model: [None] raises [TypeError]. *)
Definition combine_step (msp : Z) (done : table (list tf)) (end_prev : option Z) (r : row (list tf))
  : res (table (list tf) * list tf) :=
  match end_prev with
  | None => Ok (done, r_val r)
  | Some ep =>
      match r_start r with
      | None => Err TypeError
      | Some index =>
          let secs := r_val r in
          let close (_ : unit) :=
            (* lines 64-76 *)
            let done' := match last_opt (all_sections done) with
                         | Some l => match tf_end l with
                                     | None => match set_end l (Some ep) with
                                               | Ok l' => set_last_section done l'
                                               | Err _ => done
                                               end
                                     | Some _ => done
                                     end
                         | None => done
                         end in
            let secs' := match secs with
                         | s0 :: rest => match tf_start s0 with
                                         | None => match set_start s0 (Some index) with
                                                   | Ok s0' => s0' :: rest
                                                   | Err _ => secs
                                                   end
                                         | Some _ => secs
                                         end
                         | [] => secs
                         end in
            Ok (done', secs') in
          if rows_adjacent msp ep index then
            match secs with
            | [] => Err IndexError
            | s0 :: rest =>
                match tf_start s0 with
                | None =>
                    match last_opt (all_sections done) with
                    | None => Err IndexError
                    | Some l =>
                        match tf_end l with
                        | Some _ => Err AssertionError
                        | None => do l' <- set_end l (tf_end s0);
                                  Ok (set_last_section done l', rest)
                        end
                    end
                | Some _ => close tt
                end
            end
          else close tt
      end
  end.

(** goodsectionsresults.py:46-79, the loop over the rows. *)
Fixpoint combine_loop (msp : Z) (done : table (list tf)) (end_prev : option Z) (rows : table (list tf))
  : res (table (list tf) * option Z) :=
  match rows with
  | [] => Ok (done, end_prev)
  | r :: rest =>
      do p <- combine_step msp done end_prev r;
      let '(done', secs) := p in
      combine_loop msp (done' ++ [mkRow (r_start r) (r_end r) secs]) (r_end r) rest
  end.

Definition set_incl (t : tf) (b : bool) : tf :=
  mkTF (tf_start_ t) (tf_end_ t) (tf_enabled t) (tf_empty t) b.

(** goodsectionsresults.py:37-86, [combined]: the returned sections and the
    object's table afterwards. *)
Definition gs_combined (msp : Z) (data : table (list tf)) : res (list tf * table (list tf)) :=
  do p <- combine_loop msp [] None data;
  let '(done, end_prev) := p in
  match last_opt (all_sections done) with
  | None => Ok ([], done)
  | Some l =>
      let l1 := set_incl l true in
      do l2 <- match tf_end l1 with
               | None => set_end l1 end_prev
               | Some _ => Ok l1
               end;
      let done' := set_last_section done l2 in
      Ok (all_sections done', done')
  end.

(** goodsectionsresults.py:88-93, [unify]. *)
Fixpoint gs_unify_rows (data other : table (list tf)) : res (table (list tf)) :=
  match data with
  | [] => Ok []
  | r :: rest =>
      match rows_at other (r_start r) with
      | [] => Err KeyError
      | o :: _ =>
          do i <- group_intersection (r_val r) (r_val o);
          do rest' <- gs_unify_rows rest other;
          Ok (mkRow (r_start r) (r_end r) i :: rest')
      end
  end.
Definition gs_unify (data other : table (list tf)) : res (table (list tf)) :=
  do _ <- unify_check data other;
  gs_unify_rows data other.

(** One line of the cached table: index, 'end', 'section_start', 'section_end'. *)
Record gs_cached := mkCached {
  gc_start : option Z; gc_end : option Z; gc_sec_start : option Z; gc_sec_end : option Z }.

(** goodsectionsresults.py:122-144, [export_to_cache]. *)
Definition gs_export (data : table (list tf)) : list gs_cached :=
  concat (map (fun r => map (fun s => mkCached (r_start r) (r_end r) (tf_start s) (tf_end s)) (r_val r)) data).

(** [groupby(level=0)] then [groupby('end')]: the keys in sorted order, without
    NaT keys. *)
Fixpoint dedup_keys (l : list (Z * Z)) : list (Z * Z) :=
  match l with
  | a :: ((b :: _) as r) => if (fst a =? fst b) && (snd a =? snd b) then dedup_keys r else a :: dedup_keys r
  | _ => l
  end.
Definition cached_keys (l : list gs_cached) : list (Z * Z) :=
  let ks := concat (map (fun c => match gc_start c, gc_end c with Some s, Some e => [(s, e)] | _, _ => [] end) l) in
  dedup_keys (sort_by (fun k => Some (fst k)) (sort_by (fun k => Some (snd k)) ks)).

Definition cached_group (l : list gs_cached) (k : Z * Z) : list gs_cached :=
  filter (fun c => oeqb (gc_start c) (Some (fst k)) && oeqb (gc_end c) (Some (snd k))) l.

(** goodsectionsresults.py:105-120, [import_from_cache]. *)
Fixpoint gs_import_keys (cached : list gs_cached) (sections : list tf) (keys : list (Z * Z)) (data : table (list tf))
  : res (table (list tf)) :=
  match keys with
  | [] => Ok data
  | k :: rest =>
      do t <- mk (Some (fst k)) (Some (snd k));
      if existsb (fun s => tf_eq t s) sections then
        do tfs <- mapM (fun c => mk (gc_sec_start c) (gc_sec_end c)) (cached_group cached k);
        do data' <- results_append data t tfs;
        gs_import_keys cached sections rest data'
      else gs_import_keys cached sections rest data
  end.
Definition gs_import (cached : list gs_cached) (sections : list tf) (data : table (list tf)) : res (table (list tf)) :=
  gs_import_keys cached sections (cached_keys cached) data.

(** elecmeter.py:618-634, [good_sections] without a cache: the node is run
    over the chunks and the combined results are returned. *)
Definition good_sections_of (msp : Z) (chunks : gen (chunk bool)) : res (list tf) :=
  do data <- gs_process msp chunks;
  do p <- gs_combined msp data;
  Ok (fst p).
