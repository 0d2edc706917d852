(** Model of loading from an HDF5 store as the generator it is: the table and the window may change
    between two chunks (nilmtk/datastore/hdfdatastore.py:32-148).

    [rows_at k] and [window_at k] are the table and the store's window while the chunk number [k] (from 0
    on) is being produced, that is during the [k]-th call of next(); nothing changes during such a call. *)
From Verif Require Import Base TimeFrameModel StoreModel.
Open Scope nat_scope.

Section Live.
  Context {A : Type}.
  Variable rows_at : nat -> list (sample A).
  Variable window_at : nat -> tf.

  (** hdfdatastore.py:108-148: the loop over the chunks of a section. *)
  Fixpoint live_chunks (step : nat) (w : tf) (n_look csize n_chunks section_end : nat) (chunk_i : nat) (starts : list nat) : gen (chunk A) :=
    match starts with
    | [] => ([], None)
    | st :: rest =>
        let chunk_end := st + csize in
        let more := Nat.ltb chunk_i (n_chunks - 1) in
        let chunk_end := if Nat.ltb section_end chunk_end then section_end else chunk_end in
        let chunk_end := S chunk_end in
        let data := select (rows_at step) st chunk_end in
        let look := look_ahead_rows (rows_at step) data n_look chunk_end in
        match timeframe_for_chunk more chunk_i w (map fst data) with
        | Err e => ([], Some e)
        | Ok t => gen_cons (mkChunk data look t) (live_chunks (S step) w n_look csize n_chunks section_end (S chunk_i) rest)
        end
    end.

  (** hdfdatastore.py:102-148. *)
  Definition live_range (step : nat) (w : tf) (n_look csize s e : nat) : gen (chunk A) :=
    if Nat.eqb csize 0 then ([], Some ValueError) else
    live_chunks step w n_look csize (ceil_div (e - s) csize) e 0 (py_range s e csize).

  (** hdfdatastore.py:65-148: one section; the positions of its rows are looked up once, when it begins. *)
  Definition live_section (step : nat) (section : tf) (n_look csize : nat) : gen (chunk A) :=
    match intersection (window_at step) section with
    | Err e => ([], Some e)
    | Ok w =>
        if tf_empty w then ([mkChunk [] None section], None) else
        match query_terms w with
        | Err e => ([], Some e)
        | Ok None =>
            let section_end := length (rows_at step) in
            if Nat.leb section_end 1 then ([mkChunk [] None section], None)
            else live_range step w n_look csize 0 section_end
        | Ok (Some q) =>
            match coords_from 0 (Some q) (rows_at step) with
            | [] => ([mkChunk [] None w], None)
            | c0 :: cs =>
                match last_opt (c0 :: cs) with
                | None => ([], Some IndexError)
                | Some cl => live_range step w n_look csize c0 cl
                end
            end
        end
    end.

  (** hdfdatastore.py:32-148, [load]. *)
  Fixpoint live_load (step : nat) (sections : list tf) (n_look csize : nat) : gen (chunk A) :=
    match sections with
    | [] => ([], None)
    | s :: rest =>
        let g := live_section step s n_look csize in
        gen_app g (live_load (step + length (fst g)) rest n_look csize)
    end.
End Live.
