(** Vocabulary for good sections: runs of samples without a long gap. *)
From Verif Require Import Base TimeFrameModel TimeFrameSpec StoreModel StoreSpec.
Open Scope Z_scope.

(** Strictly increasing timestamps. *)
Fixpoint increasing_times (l : list Z) : Prop :=
  match l with
  | a :: ((b :: _) as r) => a < b /\ increasing_times r
  | _ => True
  end.

(** Consecutive samples are at most [msp] apart. *)
Fixpoint gap_free (msp : Z) (l : list Z) : Prop :=
  match l with
  | a :: ((b :: _) as r) => b - a <= msp /\ gap_free msp r
  | _ => True
  end.

Definition first_of (l : list Z) (x : Z) : Prop := exists r, l = x :: r.
Definition last_of (l : list Z) (x : Z) : Prop := exists r, l = r ++ [x].

(** [runs_of msp index rs]: [rs] is the division of [index] into its maximal
    gap-free runs: nothing lost or reordered, no long gap inside a run, a long
    gap between consecutive runs. *)
Fixpoint separated (msp : Z) (rs : list (list Z)) : Prop :=
  match rs with
  | r :: ((q :: _) as rest) => (forall x y, last_of r x -> first_of q y -> y - x > msp) /\ separated msp rest
  | _ => True
  end.
Definition runs_of (msp : Z) (index : list Z) (rs : list (list Z)) : Prop :=
  concat rs = index /\ Forall (fun r => r <> [] /\ gap_free msp r) rs /\ separated msp rs.

(** The frame that belongs to a run: [opened] if the run began in an earlier
    chunk, [continued] if it goes on in a later one. *)
Definition frame_of_run (opened continued : bool) (r : list Z) (t : tf) : Prop :=
  tf_empty t = false /\ tf_incl t = false /\ tf_enabled t = true /\
  (if opened then tf_start t = None else exists x, first_of r x /\ tf_start t = Some x) /\
  (if continued then tf_end t = None else exists x, last_of r x /\ tf_end t = Some x).

(** The frames of a list of runs: one per run of at least two samples; a run
    that is opened or continued counts even with one sample. *)
Inductive frames_of_runs (continued : bool) : bool -> list (list Z) -> list tf -> Prop :=
  | fr_nil opened : frames_of_runs continued opened [] []
  | fr_frame opened r rs t ts :
      ((2 <= length r)%nat \/ opened = true \/ (rs = [] /\ continued = true)) ->
      frame_of_run opened (match rs with [] => continued | _ => false end) r t ->
      frames_of_runs continued false rs ts ->
      frames_of_runs continued opened (r :: rs) (t :: ts)
  | fr_single r rs ts :
      length r = 1%nat -> (rs = [] -> continued = false) ->
      frames_of_runs continued false rs ts ->
      frames_of_runs continued false (r :: rs) ts.

(** Timestamps of the rows without NaN. *)
Definition valid_times (df : list (sample bool)) (index : list Z) : Prop :=
  exists m, is_filter (fun r => snd r = true) df m /\ index = map fst m.

(** [continues msp last look b]: whether the data goes on within [msp] after
    [last], judged by the first valid look-ahead row.  No [b] is possible if
    the look-ahead has rows but no valid one. *)
Definition continues (msp last : Z) (look : option (list (sample bool))) (b : bool) : Prop :=
  match look with
  | None => b = false
  | Some l => (l = [] /\ b = false) \/
      (exists pre x post, l = pre ++ (x, true) :: post /\ Forall (fun r => snd r = false) pre /\
         (b = true <-> x - last <= msp))
  end.

(** [last_closed e ts us]: [us] is [ts] with its last frame marked as including
    its end, the end being [e] if it was open. *)
Inductive last_closed (e : Z) : list tf -> list tf -> Prop :=
  | lc_nil : last_closed e [] []
  | lc_one t u :
      tf_start u = tf_start t -> tf_end u = Some (match tf_end t with Some x => x | None => e end) ->
      tf_incl u = true -> tf_empty u = false -> tf_enabled u = true -> last_closed e [t] [u]
  | lc_cons t ts us : ts <> [] -> last_closed e ts us -> last_closed e (t :: ts) (t :: us).

(** Every chunk has at least two rows without NaN, and its look-ahead, if it
    has any row, has one without NaN. *)
Definition usable_chunk (ch : chunk bool) : Prop :=
  (exists index, valid_times (c_rows ch) index /\ (2 <= length index)%nat) /\
  (forall l, c_look ch = Some l -> l = [] \/ exists x, In x l /\ snd x = true).

Definition nan_free (rows : list (sample bool)) : Prop := Forall (fun r => snd r = true) rows.

(** The table has a valid row after [last] and at most [msp] after it. *)
Definition goes_on (msp : Z) (rows : list (sample bool)) (last : Z) : Prop :=
  exists r, In r rows /\ snd r = true /\ last < fst r <= last + msp.
