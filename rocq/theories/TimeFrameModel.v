(** Model of nilmtk/timeframe.py (the class [TimeFrame] and the module-level
    functions) and nilmtk/timeframegroup.py.

    Simplifications, used throughout:
    - a [pd.Timestamp] is an integer number of nanoseconds ([Z]); the [tz]
      argument of the constructor (timeframe.py:37-41), [check_tz] and
      [__repr__] are not modelled; [pd.NaT] and [None] are both [None]
      (timeframe.py:356-361);
    - thresholds and gaps, which Python takes in seconds, are in the same unit
      as timestamps;
    - a [Timestamp] is always truthy in Python, so [if self.end and ...] is
      a test for [None]. *)
From Verif Require Import Base.
Open Scope Z_scope.

(** timeframe.py:10-27, attributes of [TimeFrame]. *)
Record tf := mkTF {
  tf_start_ : option Z;      (* _start *)
  tf_end_ : option Z;        (* _end *)
  tf_enabled : bool;         (* enabled *)
  tf_empty : bool;           (* _empty; property empty, timeframe.py:72-74 *)
  tf_incl : bool             (* include_end *)
}.

(** timeframe.py:62-65, property [start]. *)
Definition tf_start (t : tf) : option Z := if tf_enabled t then tf_start_ t else None.
(** timeframe.py:67-70, property [end]. *)
Definition tf_end (t : tf) : option Z := if tf_enabled t then tf_end_ t else None.

(** timeframe.py:76-86, setter of [start]. *)
Definition set_start (t : tf) (new_start : option Z) : res tf :=
  match new_start with
  | None => Ok (mkTF None (tf_end_ t) (tf_enabled t) (tf_empty t) (tf_incl t))
  | Some s =>
      let r := mkTF (Some s) (tf_end_ t) (tf_enabled t) (tf_empty t) (tf_incl t) in
      match tf_end t with
      | Some e => if s >=? e then Err ValueError else Ok r
      | None => Ok r
      end
  end.

(** timeframe.py:88-98, setter of [end]. *)
Definition set_end (t : tf) (new_end : option Z) : res tf :=
  match new_end with
  | None => Ok (mkTF (tf_start_ t) None (tf_enabled t) (tf_empty t) (tf_incl t))
  | Some e =>
      let r := mkTF (tf_start_ t) (Some e) (tf_enabled t) (tf_empty t) (tf_incl t) in
      match tf_start t with
      | Some s => if e <=? s then Err ValueError else Ok r
      | None => Ok r
      end
  end.

(** [self.enabled = b]: a plain attribute, timeframe.py:48. *)
Definition set_enabled (t : tf) (b : bool) : tf :=
  mkTF (tf_start_ t) (tf_end_ t) b (tf_empty t) (tf_incl t).

(** timeframe.py:47-51, [clear]. *)
Definition tf_cleared : tf := mkTF None None true false false.

(** timeframe.py:29-36, [TimeFrame(start, end)] with [tz=None]. *)
Definition mk (start end_ : option Z) : res tf :=
  do t1 <- set_start tf_cleared start;
  set_end t1 end_.

(** timeframe.py:31-32, 43-45, [TimeFrame(other)]: copies the attributes. *)
Definition mk_copy (other : tf) : tf := other.

(** timeframe.py:100-119, [adjacent].  Comparisons and subtraction with
    [None] raise [TypeError]; [a <= b <= c] and [or] short-circuit. *)
Definition adjacent (self other : tf) (gap : Z) : res bool :=
  if negb (gap >=? 0) then Err AssertionError else
  if tf_empty self || tf_empty other then Ok false else
  match tf_start other with
  | None => Err TypeError
  | Some os =>
      match tf_end self with
      | None => Err TypeError
      | Some se =>
          if (os - gap <=? se) && (se <=? os) then Ok true else
          match tf_start self with
          | None => Err TypeError
          | Some ss =>
              match tf_end other with
              | None => Err TypeError
              | Some oe => Ok ((ss - gap <=? oe) && (oe <=? ss))
              end
          end
      end
  end.

(** timeframe.py:121-125, [union]; [min]/[max] with a [None] raise. *)
Definition tf_union (self other : tf) : res tf :=
  match tf_start self, tf_start other with
  | Some ss, Some os =>
      match tf_end self, tf_end other with
      | Some se, Some oe => mk (Some (Z.min ss os)) (Some (Z.max se oe))
      | _, _ => Err TypeError
      end
  | _, _ => Err TypeError
  end.

(** timeframe.py:127-132, property [timedelta] ([None] falls off the end). *)
Definition tf_timedelta (t : tf) : option Z :=
  match tf_end t, tf_start t with
  | Some e, Some s => Some (e - s)
  | _, _ => if tf_empty t then Some 0 else None
  end.

(** [==] between two optional timestamps. *)
Definition oeqb (a b : option Z) : bool :=
  match a, b with
  | Some x, Some y => x =? y
  | None, None => true
  | _, _ => false
  end.

(** timeframe.py:150-155, start of the intersection. *)
Definition isect_start (self other : tf) : option Z :=
  match tf_start other with
  | None => tf_start self
  | Some os => match tf_start self with
               | None => Some os
               | Some ss => Some (Z.max ss os)
               end
  end.

(** timeframe.py:157-162, end of the intersection. *)
Definition isect_end (self other : tf) : option Z :=
  match tf_end other with
  | None => tf_end self
  | Some oe => match tf_end self with
               | None => Some oe
               | Some se => Some (Z.min se oe)
               end
  end.

(** timeframe.py:144, 165-168, [include_end] of the intersection. *)
Definition isect_incl (self other : tf) : bool :=
  if oeqb (isect_end self other) (tf_end other) then tf_incl other
  else if oeqb (isect_end self other) (tf_end self) then tf_incl self
  else false.

(** timeframe.py:178-181: construct, then overwrite [_empty], [include_end]. *)
Definition mk_flags (s e : option Z) (emp incl : bool) : res tf :=
  do t <- mk s e;
  Ok (mkTF (tf_start_ t) (tf_end_ t) (tf_enabled t) emp incl).

(** timeframe.py:134-181, [intersection] for [other] not [None]. *)
Definition intersection (self other : tf) : res tf :=
  if tf_empty self || tf_empty other then mk_flags None None true false
  else
    match isect_start self other, isect_end self other with
    | Some s, Some e =>
        if s >=? e then mk_flags None None true (isect_incl self other)
        else mk_flags (Some s) (Some e) false (isect_incl self other)
    | s, e => mk_flags s e false (isect_incl self other)
    end.

(** timeframe.py:139-140: [intersection(None)] is a deep copy. *)
Definition intersection_opt (self : tf) (other : option tf) : res tf :=
  match other with None => Ok self | Some o => intersection self o end.

(** timeframe.py:183-192, [query_terms]: the two optional terms, as
    (lower bound, upper bound with its inclusiveness); [None] if no term. *)
Definition query_terms (t : tf) : res (option (option Z * option (Z * bool))) :=
  if tf_empty t then Err GenericException else
  match tf_start t, tf_end t with
  | None, None => Ok None
  | s, e => Ok (Some (s, match e with None => None | Some x => Some (x, tf_incl t) end))
  end.

(** The truth value of an index timestamp under the terms of [query_terms]
    (evaluated by PyTables): index>=start and index<end or index<=end. *)
Definition terms_hold (q : option (option Z * option (Z * bool))) (i : Z) : bool :=
  match q with
  | None => true
  | Some (s, e) =>
      (match s with None => true | Some s => s <=? i end) &&
      (match e with None => true | Some (e, incl) => if incl : bool then i <=? e else i <? e end)
  end.

(** timeframe.py:194-213, [slice] on the list of rows [(index, value)].
    An empty frame leaves [sliced] unbound; comparing an index with [None]
    raises [TypeError]. *)
Definition tf_slice {A} (t : tf) (frame : list (Z * A)) : res (list (Z * A)) :=
  if tf_empty t then Err UnboundLocalError else
  match tf_start t, tf_end t with
  | Some s, Some e =>
      Ok (filter (fun r => (fst r >=? s) &&
                           (if tf_incl t then fst r <=? e else fst r <? e)) frame)
  | _, _ => Err TypeError
  end.

(** timeframe.py:225-228, [__eq__]. *)
Definition tf_eq (self other : tf) : bool :=
  oeqb (tf_start other) (tf_start self) && oeqb (tf_end other) (tf_end self)
  && Bool.eqb (tf_empty other) (tf_empty self).

(** timeframe.py:230-235, [__lt__]; [None < None] raises [TypeError]. *)
Definition tf_lt (self other : tf) : res bool :=
  match tf_start self, tf_start other with
  | None, Some _ => Ok true
  | Some _, None => Ok false
  | Some a, Some b => Ok (a <? b)
  | None, None => Err TypeError
  end.

(** timeframe.py:237-238, [__hash__]: the tuple that is hashed. *)
Definition tf_hash_key (t : tf) : option Z * option Z * bool :=
  (tf_start t, tf_end t, tf_empty t).

(** timeframe.py:240-246, [to_dict]: the two optional entries.  ISO formatting
    and parsing of an absolute timestamp is taken as the identity. *)
Definition to_dict (t : tf) : option Z * option Z := (tf_start t, tf_end t).

(** timeframe.py:53-60, [from_dict]. *)
Definition from_dict (d : option Z * option Z) : res tf := mk (fst d) (snd d).

(** timeframe.py:258-262, [check_for_overlap]. *)
Definition check_for_overlap (self other : tf) : res unit :=
  do i <- intersection self other;
  if tf_empty i then Ok tt else Err ValueError.

(** timeframe.py:285-293, the loop of [split].  [None] arithmetic raises
    [TypeError].  Fuel: number of iterations allowed. *)
Fixpoint split_loop (fuel : nat) (t : tf) (thr : Z) : gen tf :=
  match fuel with
  | O => ([], Some OutOfFuel)
  | S fuel' =>
      match tf_start t with
      | None => ([], Some TypeError)
      | Some s =>
          let allowed_end := s + thr in
          match tf_end t with
          | None => ([], Some TypeError)
          | Some e =>
              if e <=? allowed_end then ([t], None)
              else
                match mk (Some s) (Some allowed_end) with
                | Err x => ([], Some x)
                | Ok piece =>
                    match mk (Some allowed_end) (Some e) with
                    | Err x => ([piece], Some x)
                    | Ok rest => gen_cons piece (split_loop fuel' rest thr)
                    end
                end
          end
      end
  end.

(** Iterations that always suffice: one per whole threshold, plus one. *)
Definition split_fuel (d thr : Z) : nat := S (Z.to_nat (d / thr)).

(** timeframe.py:264-293, [split].  [if not self] is never true in Python 3
    because the class defines [__nonzero__] and not [__bool__] (lines
    215-219); [None.total_seconds()] raises [AttributeError]. *)
Definition split (t : tf) (thr : Z) : gen tf :=
  match tf_timedelta t with
  | None => ([], Some AttributeError)
  | Some d =>
      if thr >=? d then ([t], None)
      else split_loop (split_fuel d thr) t thr
  end.

(** timeframe.py:296-300, [split_timeframes]. *)
Fixpoint split_timeframes (l : list tf) (thr : Z) : gen tf :=
  match l with
  | [] => ([], None)
  | t :: r => gen_app (split t thr) (split_timeframes r thr)
  end.

(** timeframe.py:323-330, loop of [merge_timeframes]: [rev_done] holds
    merged[:-1] in reverse and [cur] is merged[-1]. *)
Fixpoint merge_loop (rev_done : list tf) (cur : tf) (l : list tf) (gap : Z) : res (list tf) :=
  match l with
  | [] => Ok (rev rev_done ++ [cur])
  | t :: r =>
      do adj <- adjacent t cur gap;
      if adj : bool then
        do u <- tf_union t cur;
        merge_loop rev_done u r gap
      else merge_loop (cur :: rev_done) t r gap
  end.

(** timeframe.py:303-330, [merge_timeframes]. *)
Definition merge_timeframes (l : list tf) (gap : Z) : res (list tf) :=
  match l with
  | [] => Ok []
  | [t] => Ok [t]
  | t :: r => merge_loop [] t r gap
  end.

(** timeframe.py:333-344. *)
Definition list_of_timeframe_dicts (l : list tf) := map to_dict l.
(** timeframe.py:351-353. *)
Definition list_of_timeframes_from_list_of_dicts l := mapM from_dict l.

(** ** nilmtk/timeframegroup.py: a [TimeFrameGroup] is a list of frames. *)

(** timeframegroup.py:48-51, inner loop of [intersection]. *)
Fixpoint group_isect_row (t : tf) (other : list tf) : res (list tf) :=
  match other with
  | [] => Ok []
  | o :: r =>
      do i <- intersection t o;
      do rest <- group_isect_row t r;
      Ok (if tf_empty i then rest else i :: rest)
  end.

(** timeframegroup.py:36-52, [intersection]. *)
Fixpoint group_intersection (self other : list tf) : res (list tf) :=
  match self with
  | [] => Ok []
  | t :: r =>
      do row <- group_isect_row t other;
      do rest <- group_intersection r other;
      Ok (row ++ rest)
  end.

(** timeframegroup.py:54-59, [uptime]; adding [None] raises [TypeError]. *)
Fixpoint uptime_from (acc : Z) (g : list tf) : res Z :=
  match g with
  | [] => Ok acc
  | t :: r => match tf_timedelta t with
              | None => Err TypeError
              | Some d => uptime_from (acc + d) r
              end
  end.
Definition uptime (g : list tf) : res Z := uptime_from 0 g.

(** timeframegroup.py:61-68, [remove_shorter_than]. *)
Fixpoint remove_shorter_than (g : list tf) (thr : Z) : res (list tf) :=
  match g with
  | [] => Ok []
  | t :: r =>
      match tf_timedelta t with
      | None => Err AttributeError
      | Some d =>
          do rest <- remove_shorter_than r thr;
          Ok (if d >=? thr then t :: rest else rest)
      end
  end.
