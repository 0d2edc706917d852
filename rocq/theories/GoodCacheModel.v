(** Model of [good_sections] answered with the cache of statistics
    (nilmtk/elecmeter.py:618-634, 636-744, nilmtk/stats/goodsectionsresults.py:37-86, 105-144).

    Simplifications:
    - no preprocessing, [full_results] is false and no columns are chosen;
    - the cached table is a list of lines in the order of storing; times have a time zone, so
      that stripping it and putting it back is the identity;
    - appending an empty table to the cache does nothing; the columns of the cached tables
      are always the same three, so that HDFStore.append does not raise (elecmeter.py:724-727);
    - the order of sections in a Python set is that of their start (see CacheModel). *)
From Verif Require Import Base TimeFrameModel SortLib StoreModel ResultsModel GoodSectionsModel.
From Verif Require CacheModel.
Import List. Open Scope Z_scope.

(** goodsectionsresults.py:46-79, the loop of [combined] with the rows as they are left when it
    ends or raises: a row at which it raises and the rows after it are untouched
    (combine_step raises before it changes anything). *)
Fixpoint combine_rows (msp : Z) (done : table (list tf)) (end_prev : option Z) (rows : table (list tf))
  : res (option Z) * table (list tf) :=
  match rows with
  | [] => (Ok end_prev, done)
  | r :: rest =>
      match combine_step msp done end_prev r with
      | Err e => (Err e, done ++ r :: rest)
      | Ok (done', secs) => combine_rows msp (done' ++ [mkRow (r_start r) (r_end r) secs]) (r_end r) rest
      end
  end.

(** goodsectionsresults.py:37-86, [combined]: the sections returned or the exception, and the
    object's table afterwards. *)
Definition combined_effect (msp : Z) (data : table (list tf)) : res (list tf) * table (list tf) :=
  match combine_rows msp [] None data with
  | (Err e, done) => (Err e, done)
  | (Ok end_prev, done) =>
      match last_opt (all_sections done) with
      | None => (Ok [], done)
      | Some l =>
          let l1 := set_incl l true in
          match tf_end l1 with
          | Some _ => let d := set_last_section done l1 in (Ok (all_sections d), d)
          | None =>
              match set_end l1 end_prev with
              | Ok l2 => let d := set_last_section done l2 in (Ok (all_sections d), d)
              | Err e => (Err e, set_last_section done l1)
              end
          end
      end
  end.

(** elecmeter.py:618-634, 675-744: a request for the good sections inside [sections0]; the
    answer and the cached lines afterwards.  [load] gives the chunks that the store delivers
    for a list of sections, with ten look-ahead rows.
    [results_obj.simple().keys()] (line 697) always ends in the bare [except]: a list has no
    keys.  Before that, [simple] has changed the imported sections. *)
Definition get_good (msp : Z) (load : list tf -> gen (chunk bool)) (sections0 : list tf) (cache : list gs_cached)
  : res (list tf) * list gs_cached :=
  let sections := filter (fun s => negb (tf_empty s)) sections0 in
  match gs_import cache sections [] with
  | Err e => (Err e, cache)
  | Ok imported =>
      let touched := snd (combined_effect msp imported) in
      match results_timeframes touched with
      | Err e => (Err e, cache)
      | Ok done =>
          match CacheModel.missing sections done with
          | [] => (fst (combined_effect msp touched), cache)
          | todo =>
              match gs_process msp (load todo) with
              | Err e => (Err e, cache)
              | Ok computed =>
                  match results_update touched computed with
                  | (_, Some e) => (Err e, cache)
                  | (merged, None) => (fst (combined_effect msp merged), cache ++ gs_export computed)
                  end
              end
          end
      end
  end.

(** A history of requests: the answers, and the cached lines at the end. *)
Fixpoint serve_good (msp : Z) (load : list tf -> gen (chunk bool)) (h : list (list tf)) (cache : list gs_cached)
  : list (res (list tf)) * list gs_cached :=
  match h with
  | [] => ([], cache)
  | sections :: rest =>
      let '(a, cache') := get_good msp load sections cache in
      let '(l, final) := serve_good msp load rest cache' in (a :: l, final)
  end.

(** The requests to a meter whose rows are in an HDF store with the window [window], read in
    chunks of [c] rows. *)
Definition meter_goods (msp : Z) (rows : list (sample bool)) (window : tf) (c : nat) (h : list (list tf)) : list (res (list tf)) :=
  fst (serve_good msp (fun ss => hdf_load rows window ss 10 c) h []).
