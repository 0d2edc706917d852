(** Model of windows given in local time: [DataSet.set_window] (nilmtk/dataset.py:71-87) with the time
    zone of the data set, [TimeFrame.__init__] (nilmtk/timeframe.py:29-41).

    Simplifications:
    - a time zone is its first offset and the list of its changes, each an instant and the offset
      from then on (the tables of pytz); times are whole nanoseconds;
    - [Timestamp.tz_localize(tz)] is the instant at which clocks show the time; it raises
      ([GenericException]: AmbiguousTimeError, NonExistentTimeError) if there are several or none,
      as its arguments [ambiguous] and [nonexistent] are left at 'raise';
    - the rest of [set_window] is as in SessionModel. *)
From Verif Require Import Base TimeFrameModel SessionModel.
Open Scope Z_scope.

Record zone := mkZone { z_first : Z; z_changes : list (Z * Z) }.
(** The offset in force at an instant. *)
Fixpoint offset_from (o : Z) (l : list (Z * Z)) (u : Z) : Z :=
  match l with
  | [] => o
  | (t, o') :: r => if u <? t then o else offset_from o' r u
  end.
(** What clocks show at an instant. *)
Definition wall (z : zone) (u : Z) : Z := u + offset_from (z_first z) (z_changes z) u.
(** [Timestamp.tz_localize], used at timeframe.py:39 and 41. *)
Definition localize (z : zone) (t : Z) : res Z :=
  match nodup Z.eq_dec (filter (fun u => wall z u =? t) (map (fun o => t - o) (z_first z :: map snd (z_changes z)))) with
  | [u] => Ok u
  | _ => Err GenericException
  end.
(** dataset.py:71-87: [set_window(start, end)] with times without a time zone. *)
Definition set_local_window (z : zone) (start end_ : option Z) : res tf :=
  set_window true (Some (localize z)) (option_map Naive start) (option_map Naive end_).
