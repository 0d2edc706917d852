(** Model of the summary of a MeterGroup, [describe] (nilmtk/metergroup.py:1690-1725), over
    meters with their own stored readings.

    Simplifications:
    - no keyword arguments are given, statistics are computed and not taken from the cache
      (C22), the store has no window;
    - energies are joules of one AC type (see AvgModel), rates are exact rationals;
    - the correlation with the mains and the proportion of energy submetered are given by
      their outcome (C38, C56, C84), and so is the dropout rate of a single meter
      (C17, C83);
    - a group inside the group has at least one meter;
    - the entries of the Series that are strings are kept as the values they show. *)
From Coq Require Import QArith.
From Verif Require Import Base TimeFrameModel StoreModel GoodSectionsModel EnergyModel AvgModel.
From Verif Require GStatsModel GroupModel.
Import List. Open Scope Z_scope.

(** An ElecMeter: elecmeter.py:171-172 ([site_meter]), its building, 166-169
    ([sample_period], None without a device model), 597-616 ([dropout_rate]), the rows in
    the store, and the columns, AC type and longest sample distance for its energy. *)
Record stored := mkStored {
  st_site : bool; st_building : nat; st_period : option Z; st_rate : res (option Q);
  st_rows : list (sample (list (option Z))); st_columns : list column; st_ac : actype; st_msp : Z }.

Inductive node := Meter (m : stored) | Many (first : node) (others : list node).
(** The meters and the disabled meters of a MeterGroup. *)
Record group := mkGroup { members : list node; disabled : list node }.

(** elecmeter.py:171-172, metergroup.py:838-840. *)
Fixpoint is_site (n : node) : bool :=
  match n with Meter m => st_site m | Many f r => is_site f || existsb is_site r end.

(** metergroup.py:553-567; see GroupModel for [simplest_type_for]. *)
Fixpoint building (n : node) : GroupModel.bval :=
  match n with
  | Meter m => GroupModel.BOne (st_building m)
  | Many f r => GroupModel.simplest (building f :: map building r)
  end.
Definition several_buildings (g : group) : bool :=
  match GroupModel.simplest (map building (members g)) with GroupModel.BMany => true | _ => false end.

(** metergroup.py:777-796, [mains]. *)
Definition mains (g : group) : res (option node) :=
  if several_buildings g then Err RuntimeError
  else Ok (match filter is_site (members g) with
           | [] => None
           | [x] => Some x
           | x :: l => Some (Many x l)
           end).
(** An attribute of the result: None has none of them. *)
Definition of_mains {A} (g : group) (f : node -> res A) : res A :=
  do m <- mains g;
  match m with None => Err AttributeError | Some n => f n end.

(** Python's [max] of a list with numbers and None. *)
Definition max_step (x y : option Z) : res (option Z) :=
  match x, y with
  | Some a, Some b => Ok (Some (Z.max a b))
  | _, _ => Err TypeError
  end.
Definition py_max (l : list (option Z)) : res (option Z) :=
  match l with [] => Err ValueError | x :: r => foldM max_step r x end.

(** elecmeter.py:166-169, metergroup.py:574-576, [sample_period]. *)
Fixpoint sample_period (n : node) : res (option Z) :=
  match n with
  | Meter m => Ok (st_period m)
  | Many f r => do x <- sample_period f; do xs <- mapM (fun v => v) (map sample_period r); py_max (x :: xs)
  end.
(** metergroup.py:832-836, [submeters], and its sample period. *)
Definition submeters (g : group) : list node := filter (fun n => negb (is_site n)) (members g).
Definition submeter_period (g : group) : res (option Z) :=
  do xs <- mapM sample_period (submeters g); py_max xs.

(** elecmeter.py:92-94, metergroup.py:1375-1390, [get_timeframe] (see GStatsModel). *)
Fixpoint frames (n : node) : GStatsModel.tnode :=
  match n with
  | Meter m => GStatsModel.TMeter (hdf_get_timeframe (st_rows m) tf_cleared)
  | Many f r => GStatsModel.TGroup (frames f :: map frames r)
  end.
Definition timeframe (g : group) : res (option tf) := GStatsModel.get_timeframe (GStatsModel.TGroup (map frames (members g))).

(** metergroup.py:930-943, [good_sections]: of the first meter. *)
Fixpoint good (c : nat) (n : node) : res (list tf) :=
  match n with
  | Meter m => meter_good (st_rows m) (st_msp m) c
  | Many f _ => good c f
  end.
(** metergroup.py:842-873, [total_energy]: the sum. *)
Fixpoint energy (c : nat) (n : node) : res Q :=
  match n with
  | Meter m => meter_energy (st_columns m) (st_rows m) (st_msp m) (st_ac m) c
  | Many f r => do x <- energy c f; do xs <- mapM (fun v => v) (map (energy c) r); Ok (fold_left Qplus xs x)
  end.

(** metergroup.py:893-917, [dropout_rate]: numpy's mean over the meters. *)
Fixpoint dropout (n : node) : res (option Q) :=
  match n with
  | Meter m => st_rate m
  | Many f r => do x <- dropout f; do xs <- mapM (fun v => v) (map dropout r); Ok (GStatsModel.np_mean (x :: xs))
  end.
(** metergroup.py:1705-1712 with 875-889: the least, the mean and the largest of the
    array; NaN if a rate is NaN, ValueError for an empty array. *)
Definition least (a b : Q) : Q := if Qle_bool a b then a else b.
Definition greatest (a b : Q) : Q := if Qle_bool a b then b else a.
Definition dropout_entry (g : group) : res (option (Q * Q * Q)) :=
  do xs <- mapM dropout (members g);
  match xs with
  | [] => Err ValueError
  | _ =>
      match GStatsModel.all_some xs, GStatsModel.np_mean xs with
      | Some (q :: qs), Some mean => Ok (Some (fold_left least qs q, mean, fold_left greatest qs q))
      | _, _ => Ok None
      end
  end.

(** The Series. *)
Record summary (C P : Type) := mkSummary {
  total_n_meters : nat;
  total_n_site_meters : nat;
  expensive : option (C * P * option (Q * Q * Q));
  mains_sample_period : option Z;
  submeter_sample_period : option Z;
  frame_start : option Z; frame_end : option Z;
  total_duration : option Z;
  mains_uptime : Z;
  proportion_uptime : option Q;
  average_mains_energy_per_day : option Q }.
Arguments total_n_meters {C P}. Arguments total_n_site_meters {C P}. Arguments expensive {C P}. Arguments mains_sample_period {C P}.
Arguments submeter_sample_period {C P}. Arguments frame_start {C P}. Arguments frame_end {C P}. Arguments total_duration {C P}.
Arguments mains_uptime {C P}. Arguments proportion_uptime {C P}. Arguments average_mains_energy_per_day {C P}.

(** metergroup.py:1700-1712, the part under [if compute_expensive_stats]. *)
Definition expensive_part {C P} (stats : option (res C * res P)) (g : group) : res (option (C * P * option (Q * Q * Q))) :=
  match stats with
  | None => Ok None
  | Some (correlation, submetered) =>
      do x <- correlation; do y <- submetered; do d <- dropout_entry g; Ok (Some (x, y, d))
  end.

(** metergroup.py:1719-1723: the quotient, NaN on ZeroDivisionError; without a
    [timedelta] AttributeError. *)
Definition uptime_share (up : Z) (duration : option Z) : res (option Q) :=
  match duration with
  | None => Err AttributeError
  | Some d => if d =? 0 then Ok None else Ok (Some (inject_Z up / inject_Z d)%Q)
  end.

(** metergroup.py:1690-1725, [describe], with 1686-1688, [all_meters]; [c] is the chunk
    size of the store, [stats] is [None] for [compute_expensive_stats=False]. *)
Definition describe {C P} (c : nat) (stats : option (res C * res P)) (g : group) : res (summary C P) :=
  let all_meters := members g ++ disabled g in
  do exp <- expensive_part stats g;
  do mp <- of_mains g sample_period;
  do sp <- submeter_period g;
  do frame <- timeframe g;
  match frame with
  | None => Err AttributeError
  | Some t =>
      do up <- of_mains g (fun n => uptime_of (good c n));
      do share <- uptime_share up (tf_timedelta t);
      do avg <- of_mains g (fun n => average_energy false true (good c n) (Err AttributeError) (energy c n) day);
      Ok (mkSummary C P (length all_meters) (length (filter is_site all_meters)) exp mp sp (tf_start t) (tf_end t) (tf_timedelta t) up share avg)
  end.
