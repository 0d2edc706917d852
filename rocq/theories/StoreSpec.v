(** Vocabulary for the properties of data stores: what it means for a list of
    chunks to deliver a list of rows. *)
From Verif Require Import Base TimeFrameModel TimeFrameSpec StoreModel.
Open Scope Z_scope.

(** Rows in strictly increasing time order, as a meter's table is stored. *)
Fixpoint increasing {A} (rows : list (sample A)) : Prop :=
  match rows with
  | a :: ((b :: _) as r) => fst a < fst b /\ increasing r
  | _ => True
  end.

(** [is_filter P l m]: [m] consists of exactly the elements of [l] that satisfy
    [P], in the order and multiplicity of [l]. *)
Inductive is_filter {A} (P : A -> Prop) : list A -> list A -> Prop :=
  | filt_nil : is_filter P [] []
  | filt_keep x l m : P x -> is_filter P l m -> is_filter P (x :: l) (x :: m)
  | filt_drop x l m : ~ P x -> is_filter P l m -> is_filter P (x :: l) m.

(** The stored rows of a period ([include_end] honoured). *)
Definition rows_of_period {A} (t : tf) (rows m : list (sample A)) : Prop :=
  is_filter (fun r => inTFc t (fst r)) rows m.

(** The rows of the first chunk followed by all but the first row of each
    later chunk. *)
Definition unshared {A} (cs : list (chunk A)) : list (sample A) :=
  match cs with
  | [] => []
  | c :: r => c_rows c ++ concat (map (fun c' => tl (c_rows c')) r)
  end.

(** Each chunk begins with the last row of its predecessor. *)
Fixpoint share_one_row {A} (cs : list (chunk A)) : Prop :=
  match cs with
  | a :: ((b :: _) as r) =>
      (exists x pre post, c_rows a = pre ++ [x] /\ c_rows b = x :: post) /\ share_one_row r
  | _ => True
  end.

(** The chunks deliver the rows [m] with chunks of at most [csize + 1] rows. *)
Definition delivers {A} (cs : list (chunk A)) (m : list (sample A)) (csize : nat) : Prop :=
  unshared cs = m /\ share_one_row cs /\
  Forall (fun c => (2 <= length (c_rows c) <= csize + 1)%nat) cs.

(** The chunk is a run of consecutive stored rows and its look-ahead (if any
    was requested) is the next [n] stored rows, or as many as there are. *)
Definition look_ahead_right {A} (rows : list (sample A)) (n : nat) (c : chunk A) : Prop :=
  exists pre post, rows = pre ++ c_rows c ++ post /\
    c_look c = if Nat.eqb n 0 then None else Some (firstn n post).

(** First and last timestamps of rows. *)
Definition first_time {A} (rows : list (sample A)) (s : Z) : Prop :=
  exists x r, rows = x :: r /\ fst x = s.
Definition last_time {A} (rows : list (sample A)) (e : Z) : Prop :=
  exists x r, rows = r ++ [x] /\ fst x = e.

(** The stored rows a request should deliver: inside the window and inside the
    section (both half-open). *)
Definition visible {A} (rows : list (sample A)) (window section : tf) (m : list (sample A)) : Prop :=
  is_filter (fun r => inTF window (fst r) /\ inTF section (fst r)) rows m.

Definition half_open (t : tf) : Prop := tf_incl t = false.

(** Neither the window nor the section has a start or an end. *)
Definition unbounded_request (window section : tf) : Prop :=
  tf_start window = None /\ tf_end window = None /\ tf_start section = None /\ tf_end section = None /\
  tf_empty window = false /\ tf_empty section = false.

(** The requests that the HDF store serves correctly: the section does not
    match exactly one row, and a load without any bound does not hit a table
    of [k * csize + 1] rows. *)
Definition servable {A} (rows : list (sample A)) (window : tf) (csize : nat) (section : tf)
  (m : list (sample A)) : Prop :=
  length m <> 1%nat /\
  (unbounded_request window section -> rows = [] \/ ((length rows - 1) mod csize <> 0)%nat).

(** What the chunks of one section should look like: one empty chunk if no row
    matches, otherwise the matching rows. *)
Definition section_served {A} (csize : nat) (m : list (sample A)) (cs : list (chunk A)) : Prop :=
  (m = [] -> exists t, cs = [mkChunk [] None t]) /\ (m <> [] -> delivers cs m csize).

(** Sections listed in time order: every instant of an earlier section
    precedes every instant of a later one. *)
Definition sections_in_order (l : list tf) : Prop :=
  forall j k a b i i', (j < k)%nat -> nth_error l j = Some a -> nth_error l k = Some b ->
    inTF a i -> inTF b i' -> i < i'.

(** [cut csize rows bs]: [bs] are the blocks of [csize] rows (the last one may
    be shorter) into which a file is read. *)
Inductive cut {A} (csize : nat) : list A -> list (list A) -> Prop :=
  | cut_nil : cut csize [] []
  | cut_last b : b <> [] -> (length b <= csize)%nat -> cut csize b [b]
  | cut_cons b rest bs : length b = csize -> rest <> [] -> cut csize rest bs -> cut csize (b ++ rest) (b :: bs).
