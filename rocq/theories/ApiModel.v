(** Model of data handling in nilmtk/api.py: [dropna], the artificial
    aggregate, chunk-wise training and [predict].

    Simplifications:
    - a DataFrame is its list of rows, a row being a timestamp and one optional
      value per column (NaN is [None]); column labels are not modelled, so
      adding two frames adds them cell by cell;
    - the rows of a frame have strictly increasing timestamps (hypothesis of the
      theorems), for which [Index.intersection] is the sorted set intersection
      and [.loc[ix]] is the rows at those timestamps;
    - [df += other] keeps the rows of [df] (pandas reindexes the sum like [df]);
      a row missing in [other] becomes NaN. *)
From Verif Require Import Base.
Open Scope Z_scope.

Definition cells := list (option Z).
Definition frame := list (Z * cells).

Definition index (f : frame) : list Z := map fst f.

(** [df.dropna()]: rows without missing values. *)
Definition full (c : cells) : bool := forallb (fun v => match v with Some _ => true | None => false end) c.
Definition dropna_frame (f : frame) : frame := filter (fun r => full (snd r)) f.

(** [a.intersection(b)] *)
Definition mem (t : Z) (ix : list Z) : bool := existsb (Z.eqb t) ix.
Definition intersection (a b : list Z) : list Z := filter (fun t => mem t b) a.

(** [df.loc[ix]]; KeyError if a timestamp has no row. *)
Definition row_at (f : frame) (t : Z) : option (Z * cells) := find (fun r => fst r =? t) f.
Definition loc (f : frame) (ix : list Z) : res frame :=
  mapM (fun t => match row_at f t with Some r => Ok r | None => Err KeyError end) ix.

(** api.py:277-297, [dropna]: the new mains frame, the new list of appliance
    frames, and the caller's list, whose elements are replaced on the way. *)
Definition dropna (mains : frame) (appliances : list frame) : res (frame * list frame * list frame) :=
  let mains := dropna_frame mains in
  do mains <- loc mains (index mains);
  let appliances := map dropna_frame appliances in
  let ix := fold_left (fun ix a => intersection ix (index a)) appliances (index mains) in
  do mains <- loc mains ix;
  do new <- mapM (fun a => loc a ix) appliances;
  Ok (mains, new, appliances).

(** One cell of a sum: NaN if either is NaN. *)
Definition add_cell (a b : option Z) : option Z :=
  match a, b with Some x, Some y => Some (x + y) | _, _ => None end.
Fixpoint add_cells (a b : cells) : cells :=
  match a, b with
  | x :: a, y :: b => add_cell x y :: add_cells a b
  | x :: a, [] => None :: add_cells a []
  | [], _ => []
  end.

(** [df += app_reading]. *)
Definition add_frame (df app : frame) : frame :=
  map (fun r => (fst r, match row_at app (fst r) with
                        | Some r' => add_cells (snd r) (snd r')
                        | None => map (fun _ => None) (snd r)
                        end)) df.

(** api.py:132-136, 178-182, 225-229, 264-268: the artificial aggregate;
    [appliance_readings[0]] of an empty list raises IndexError. *)
Definition artificial_aggregate (appliances : list frame) : res frame :=
  match appliances with
  | [] => Err IndexError
  | first :: _ => Ok (fold_left add_frame appliances (map (fun r => (fst r, map (fun _ => Some 0) (snd r))) first))
  end.

(** ** Chunk-wise training *)

(** api.py:115-137: the data of the [chunk_num]-th call of [partial_fit] with
    DROP_ALL_NANS set.  An appliance without that many chunks contributes an
    empty frame. *)
Definition nth_chunk (chunks : list frame) (k : nat) : frame := nth k chunks [].
Definition training_chunk (appliances : list (list frame)) (k : nat) (mains : frame) : res (frame * list frame) :=
  do (m, a, _) <- dropna mains (map (fun chunks => nth_chunk chunks k) appliances);
  Ok (m, a).

(** api.py:113-145, [train_chunk_wise] for one building: what [partial_fit] is
    given, in order. *)
Fixpoint train_from (k : nat) (mains : list frame) (appliances : list (list frame)) : res (list (frame * list frame)) :=
  match mains with
  | [] => Ok []
  | m :: rest => do x <- training_chunk appliances k m; do xs <- train_from (S k) rest appliances; Ok (x :: xs)
  end.
Definition train_chunk_wise (mains : list frame) (appliances : list (list frame)) := train_from 0 mains appliances.

(** ** Prediction *)

(** [pd.DataFrame(gt)] for a dict of Series: the rows are the sorted union of
    the indexes. *)
Fixpoint insert_time (t : Z) (l : list Z) : list Z :=
  match l with
  | [] => [t]
  | x :: r => if t <? x then t :: x :: r else if t =? x then x :: r else x :: insert_time t r
  end.
Definition union_index (ixs : list (list Z)) : list Z := fold_left (fun acc ix => fold_left (fun a t => insert_time t a) ix acc) ixs [].

(** The ground truth table: value of appliance [a] at [t]. *)
Definition truth_at (a : list (Z * option Z)) (t : Z) : option Z :=
  match find (fun r => fst r =? t) a with Some (_, v) => v | None => None end.

(** [pd.Series(values, index=ix)]: lengths must agree. *)
Definition series_with {A} (values : list A) (ix : list Z) : res (list (Z * A)) :=
  if Nat.eqb (length values) (length ix) then Ok (combine ix values) else Err ValueError.

(** api.py:363-406, [predict] with site_only unset: [truth] has for each
    appliance its readings (one column), [predicted] for each appliance the
    values computed by the classifier, in order of the mains rows and possibly
    followed by padding.  Returns the ground truth and the predictions, by
    timestamp. *)
Definition predict (truth : list (list (Z * option Z))) (predicted : list (list Z))
  : res (list (Z * list (option Z)) * list (list (Z * Z))) :=
  let ix := union_index (map (map fst) truth) in
  let gt := map (fun t => (t, map (fun a => truth_at a t) truth)) ix in
  do pred <- mapM (fun values => series_with (firstn (length gt) values) ix) predicted;
  Ok (gt, pred).
