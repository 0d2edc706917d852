(** Model of training and applying Hart's algorithm
    (nilmtk/disaggregate/hart_85.py:209-507), for training mains with one column
    (api.py:213 keeps only the first one).

    Simplifications:
    - powers are rationals (float rounding and NaN are not modelled), times
      are integers, the times of a frame of mains are distinct;
    - [states.loc[t][j] = x] changes [states]: a row of a frame of integers is a
      view of it (pandas 2 without copy-on-write);
    - [mean_shift] is the clustering of sklearn (see ClusterModel.v);
    - root mean square errors are compared by their squares. *)
From Coq Require Import String QArith Qabs.
From Verif Require Import Base HartModel SteadyModel ClusterModel.
Import List. Open Scope list_scope. Open Scope nat_scope.

(** The type of power of the column of the mains, for the pairing and for the
    clustering. *)
Definition ptype_of (column : HartModel.ac) : ptype :=
  match column with
  | HartModel.Active => ClusterModel.Active
  | HartModel.Reactive => ClusterModel.Reactive
  | HartModel.Apparent => ClusterModel.Apparent
  | HartModel.OtherAC => OtherType 0
  end.

(** A matched pair as the clustering reads it: [row['T1 ...']] and
    [row['T2 ...']]. *)
Definition first_power (e : HartModel.event) : Q := match snd e with x :: _ => x | [] => 0%Q end.
Definition as_pair (p : HartModel.event * HartModel.event) : transition_pair :=
  fun _ => (first_power (fst p), first_power (snd p)).

(** hart_85.py:277-280 and 425-428: [(centroids - abs_value).abs().idxmin()], the
    first position of the least distance; an empty frame raises. *)
Fixpoint idxmin (l : list Q) : res nat :=
  match l with
  | [] => Err ValueError
  | [_] => Ok 0
  | x :: r =>
      do i <- idxmin r;
      if Qle_bool x (nth i r 0%Q) then Ok 0 else Ok (S i)
  end.
Definition closest (centroids : list Q) (x : Q) : res nat := idxmin (map (fun c => Qabs (c - x)) centroids).

(** Position of a label of the index. *)
Fixpoint position (t : Z) (index : list Z) : option nat :=
  match index with
  | [] => None
  | u :: r => if (u =? t)%Z then Some 0 else match position t r with Some i => Some (S i) | None => None end
  end.

(** hart_85.py:268-296 and 416-444: one transition.  [states] has one list
    (-1 unknown, 1 switched on, 0 switched off) per centroid.  A transition of two
    powers cannot be subtracted from centroids of one column. *)
Definition mark_transition (index : list Z) (centroids : list Q) (states : list (list Z)) (tr : Z * vec) : res (list (list Z)) :=
  match index, last_opt index with
  | first :: _, Some last =>
      if (fst tr <? first)%Z then Ok states
      else if (last <? fst tr)%Z then Ok states
      else
        match snd tr with
        | [d] =>
            do j <- closest centroids (Qabs d);
            do col <- match nth_error states j with Some col => Ok col | None => Err KeyError end;
            match position (fst tr) index with
            | None => Err KeyError
            | Some k => Ok (set_nth j (set_nth k (if Qlt_b 0 d then 1%Z else 0%Z) col) states)
            end
        | _ => Err ValueError
        end
  | _, _ => Err IndexError
  end.

(** Assigning a float to an integer array truncates. *)
Definition truncate (q : Q) : Z := Z.quot (Qnum q) (Zpos (Qden q)).

(** hart_85.py:255-305 and 401-452: [temp_df] for a chunk with times [index],
    one column per centroid.  The initial state of [assign_power_from_states] is
    the last row of [states].  Without any transition [transient_tuple] is not
    bound; with transitions of two powers [temp_df.iloc[i,j,k]] has too many
    indexers. *)
Definition predict (index : list Z) (transients : list (Z * vec)) (centroids : list Q) : res (list (list Z)) :=
  do states <- foldM (mark_transition index centroids) transients (map (fun _ => map (fun _ => (-1)%Z) index) centroids);
  do cols <- mapM (fun p : list Z * Q =>
                     match last_opt (fst p) with
                     | None => Err IndexError
                     | Some prev => assign_power 0%Z (truncate (snd p)) (fst p) prev
                     end) (combine states centroids);
  match index, last_opt transients with
  | [], _ => Err IndexError
  | _, None => Err UnboundLocalError
  | _, Some (_, [_]) => Ok cols
  | _, Some _ => Err GenericException
  end.

(** hart_85.py:494-507, [min_rmse_column]: both are cut to the shorter length;
    the mean of nothing raises. *)
Definition squared (p : Z * Q) : Q := ((inject_Z (fst p) - snd p) * (inject_Z (fst p) - snd p))%Q.
Definition mean_squared (n : nat) (col : list Z) (truth : list Q) : Q :=
  (fold_right Qplus 0%Q (map squared (combine (firstn n col) (firstn n truth))) / inject_Z (Z.of_nat n))%Q.
Definition min_rmse_column (rows : nat) (cols : list (list Z)) (truth : list Q) : res nat :=
  let n := Nat.min rows (length truth) in
  if n =? 0 then Err ValueError
  else idxmin (map (fun col => mean_squared n col truth) cols).

(** The attributes of the algorithm; [None] if they have not been set. *)
Record hart := mkHart {
  h_appliances : option (list string);
  h_levels : option (Q * Q);        (* state_threshold, noise_level *)
  h_centroids : option (list Q);
  h_matches : option (list (string * nat)) }.
Definition new_hart : hart := mkHart None None None None.

Record params := mkParams {
  p_buffer : nat; p_noise : Q; p_threshold : Q; p_min_tol : Q; p_percent : Q; p_large : Q }.

(** [d[k] = v] *)
Fixpoint put {V} (d : list (string * V)) (k : string) (v : V) : list (string * V) :=
  match d with
  | [] => [(k, v)]
  | (k', v') :: r => if String.eqb k k' then (k', v) :: r else (k', v') :: put r k v
  end.
Fixpoint get {V} (d : list (string * V)) (k : string) : option V :=
  match d with
  | [] => None
  | (k', v) :: r => if String.eqb k k' then Some v else get r k
  end.

(** hart_85.py:325-333. *)
Definition match_appliance (rows : nat) (cols : list (list Z)) (d : list (string * nat)) (app : string * list (list Q)) : res (list (string * nat)) :=
  match snd app with
  | [] => Err IndexError
  | truth :: _ => do j <- min_rmse_column rows cols truth; Ok (put d (fst app) j)
  end.

Section Train.
  Variable mean_shift : list (list Q) -> list (list Q).

  (** hart_85.py:215-348, [partial_fit]; the readings of the mains and, for
      each appliance, its readings, in each house.  Attributes set before an
      exception stay. *)
  Definition partial_fit (p : params) (s : hart) (mains : list (HartModel.ac * list (Z * Q))) (apps : list (string * list (list Q))) : hart * option exn :=
    let s := mkHart (Some (map fst apps)) (h_levels s) (h_centroids s) (h_matches s) in
    match mains with
    | [] => (s, Some IndexError)
    | (column, readings) :: _ =>
        let rows := map (fun r => (fst r, [snd r])) readings in
        let index := map fst readings in
        let s := mkHart (h_appliances s) (Some (p_threshold p, p_noise p)) (h_centroids s) (h_matches s) in
        match find_steady_states 1 rows (p_threshold p) (p_noise p) with
        | Err e => (s, Some e)
        | Ok (_, transients) =>
            let n := match transients with [] => 0 | _ => 1 end in
            match pair column (p_buffer p) (p_min_tol p) (p_percent p) (p_large p) n transients with
            | Err e => (s, Some e)
            | Ok pairs =>
                match hart_clusters mean_shift (map as_pair pairs) [ptype_of column] with
                | Err e => (s, Some e)
                | Ok table =>
                    let centroids := map snd (concat table) in
                    let s := mkHart (h_appliances s) (h_levels s) (Some centroids) (h_matches s) in
                    match predict index transients centroids with
                    | Err e => (s, Some e)
                    | Ok cols =>
                        let s := mkHart (h_appliances s) (h_levels s) (h_centroids s) (Some []) in
                        match foldM (match_appliance (length index) cols) apps [] with
                        | Err e => (s, Some e)
                        | Ok matches => (mkHart (h_appliances s) (h_levels s) (h_centroids s) (Some matches), None)
                        end
                    end
                end
            end
        end
    end.
End Train.

Definition attr {A} (x : option A) : res A := match x with Some a => Ok a | None => Err AttributeError end.

(** hart_85.py:387-492, [disaggregate_chunk].  A frame of mains: its number of
    columns and its rows.  The transitions are those of the first frame for every
    frame; only the last table is returned. *)
Definition disaggregate_chunk (s : hart) (mains : list (nat * list row)) : res (list (list Z * list (string * list Z))) :=
  do temp <- foldM (fun (_ : option (list Z * list (list Z))) (chunk : nat * list row) =>
      match mains with
      | [] => Err IndexError
      | (cols0, rows0) :: _ =>
          do levels <- attr (h_levels s);
          do x <- find_steady_states cols0 rows0 (fst levels) (snd levels);
          do centroids <- attr (h_centroids s);
          do cols <- predict (map fst (snd chunk)) (snd x) centroids;
          Ok (Some (map fst (snd chunk), cols))
      end) mains None;
  match temp with
  | None => Err UnboundLocalError
  | Some (index, cols) =>
      do appliances <- attr (h_appliances s);
      do out <- foldM (fun d a =>
          do matches <- attr (h_matches s);
          do j <- match get matches a with Some j => Ok j | None => Err KeyError end;
          match nth_error cols j with Some col => Ok (put d a col) | None => Err KeyError end) appliances [];
      Ok [(index, out)]
  end.
