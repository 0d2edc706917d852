(** Model of a session on one data set: the window set through
    nilmtk/dataset.py (set_window), stored by nilmtk/datastore/datastore.py
    (window), and the generators that [HDFDataStore.load]
    (nilmtk/datastore/hdfdatastore.py) hands out, which are advanced one chunk
    at a time, in any order, while the window may be changed.

    Simplifications:
    - a [pd.Timestamp] without a time zone is its number of nanoseconds on the
      wall clock ([Naive]), one with a time zone the instant ([Aware]);
      comparing the two kinds raises [TypeError];
    - [Timestamp.tz_localize] is [localize], any function from wall clock times
      to instants that may raise (ambiguous or non-existent times); it raises
      [TypeError] for a timestamp that has a time zone;
    - the tables are not written during the session, so the chunks of a section
      that has been begun are computed when it is begun;
    - [columns], [verbose], the warning of [check_tz] and the flag
      [all_sections_smaller_than_chunksize] (which only selects a warning,
      metergroup.py:882) are not modelled. *)
From Verif Require Import Base TimeFrameModel StoreModel.
Open Scope nat_scope.

(** An argument of [set_window] after [pd.Timestamp(...)],
    timeframe.py:83,95. *)
Inductive stamp := Naive (t : Z) | Aware (t : Z).

(** [new_end <= self.start], timeframe.py:96. *)
Definition stamp_le (a b : stamp) : res bool :=
  match a, b with
  | Naive x, Naive y | Aware x, Aware y => Ok (x <=? y)%Z
  | _, _ => Err TypeError
  end.

(** [timestamp.tz_localize(tz)], timeframe.py:39,41. *)
Definition to_instant (localize : Z -> res Z) (s : option stamp) : res (option Z) :=
  match s with
  | None => Ok None
  | Some (Aware _) => Err TypeError
  | Some (Naive t) => do i <- localize t; Ok (Some i)
  end.

(** timeframe.py:29-41, [TimeFrame(start, end, tz)] with a time zone: the
    order of the two ends is checked before they are localized. *)
Definition frame_in_zone (localize : Z -> res Z) (start end_ : option stamp) : res tf :=
  do rev <- match start, end_ with
            | Some s, Some e => stamp_le e s
            | _, _ => Ok false
            end;
  if rev : bool then Err ValueError else
  do s <- to_instant localize start;
  do e <- to_instant localize end_;
  Ok (mkTF s e true false false).

(** dataset.py:72-87, [set_window]: the frame that becomes the window.  [zone]
    is [None] if the metadata have no time zone. *)
Definition set_window (has_store : bool) (zone : option (Z -> res Z)) (start end_ : option stamp) : res tf :=
  if negb has_store then Err RuntimeError else
  match zone with
  | None => Err RuntimeError
  | Some localize => frame_in_zone localize start end_
  end.

Section Session.
Context {A : Type}.
(* the tables of the store; [None] if there is no table under the key *)
Variable tables : nat -> option (list (sample A)).
Variable zone : option (Z -> res Z).

(** hdfdatastore.py:62-148, one section of a load, begun while [window] is in
    force.  For a key without table: 67-71 comes before the table is looked
    up; [select_as_coordinates] and [get_storer] raise [KeyError]. *)
Definition begin_section (key : nat) (window section : tf) (n_look csize : nat) : gen (chunk A) :=
  match tables key with
  | Some rows => hdf_load_section rows window section n_look csize
  | None =>
      match intersection window section with
      | Err e => ([], Some e)
      | Ok w => if tf_empty w then ([mkChunk [] None section], None) else ([], Some KeyError)
      end
  end.

(** A generator returned by [load], hdfdatastore.py:32: what remains of the
    section in progress and the sections not begun.  A generator that has
    ended or raised is [([], None)] with no sections. *)
Record cursor := mkCursor {
  cu_key : nat;
  cu_now : gen (chunk A);
  cu_todo : list tf;
  cu_look : nat;
  cu_size : nat
}.

(** What a caller observes. *)
Inductive outcome :=
  | Done                     (* a call that returned *)
  | Raised (e : exn)
  | Got (c : chunk A)        (* next() returned a chunk *)
  | Ended.                   (* next() raised StopIteration *)

(** Resume a generator until the next [yield]. *)
Fixpoint resume (key : nat) (window : tf) (n c : nat) (now : gen (chunk A)) (todo : list tf)
  : outcome * (gen (chunk A) * list tf) :=
  match now with
  | (ch :: r, e) => (Got ch, ((r, e), todo))
  | ([], Some e) => (Raised e, (([], None), []))
  | ([], None) =>
      match todo with
      | [] => (Ended, (([], None), []))
      | s :: rest =>
          match begin_section key window s n c with
          | (ch :: r, e) => (Got ch, ((r, e), rest))
          | ([], Some e) => (Raised e, (([], None), []))
          | ([], None) => resume key window n c ([], None) rest
          end
      end
  end.

(** [next(generator)]. *)
Definition advance (window : tf) (cu : cursor) : outcome * cursor :=
  let '(o, (now, todo)) := resume (cu_key cu) window (cu_look cu) (cu_size cu) (cu_now cu) (cu_todo cu) in
  (o, mkCursor (cu_key cu) now todo (cu_look cu) (cu_size cu)).

(** What the program holding the data set does. *)
Inductive op :=
  | SetWindow (start end_ : option stamp)                                 (* dataset.set_window *)
  | Load (key : nat) (sections : option (list tf)) (n_look csize : nat)   (* store.load: a new generator *)
  | Next (g : nat).                                                       (* next() on the g-th generator *)

Record session := mkSession { se_window : tf; se_cursors : list cursor }.

(** datastore.py:39: the window of a new store. *)
Definition opened : session := mkSession tf_cleared [].

(** [l[i] = x] for a position of the list. *)
Fixpoint replace {B} (l : list B) (i : nat) (x : B) : list B :=
  match l, i with
  | [], _ => []
  | _ :: r, 0 => x :: r
  | y :: r, S j => y :: replace r j x
  end.

(** One operation.  A failing [set_window] raises before the assignment at
    dataset.py:87.  [load] is a generator function: its body does not run
    before the first [next].  [Next] of a generator that does not exist is a
    [NameError] of the calling program. *)
Definition step (st : session) (o : op) : outcome * session :=
  match o with
  | SetWindow s e =>
      match set_window true zone s e with
      | Err x => (Raised x, st)
      | Ok w => (Done, mkSession w (se_cursors st))
      end
  | Load key sections n c =>
      (Done, mkSession (se_window st)
               (se_cursors st ++ [mkCursor key ([], None) (default_sections sections) n c]))
  | Next g =>
      match nth_error (se_cursors st) g with
      | None => (Raised NameError, st)
      | Some cu =>
          let '(r, cu') := advance (se_window st) cu in
          (r, mkSession (se_window st) (replace (se_cursors st) g cu'))
      end
  end.

(** A whole session: the operations with what each of them gave, and the
    state at the end. *)
Fixpoint run (st : session) (ops : list op) : list (op * outcome) * session :=
  match ops with
  | [] => ([], st)
  | o :: rest =>
      let '(r, st') := step st o in
      let '(l, st'') := run st' rest in
      ((o, r) :: l, st'')
  end.
End Session.
Arguments session A : clear implicits.
Arguments cursor A : clear implicits.
Arguments outcome A : clear implicits.
