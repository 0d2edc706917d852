(** Model of uptime and of the average energy per period of a meter and of a group of
    meters (nilmtk/electric.py, nilmtk/metergroup.py, nilmtk/utils.py).

    Simplifications:
    - one AC type; energy in joules ([Q]) instead of kWh: a constant factor;
    - float rounding is not modelled;
    - statistics are computed, not taken from the cache (C22);
    - the clipping of readings to the range of the device is left out (C25);
    - of a group only [good_sections] of its first meter and the sum of the energies
      are used, as in the code. *)
From Coq Require Import QArith.
From Verif Require Import Base TimeFrameModel StoreModel GoodSectionsModel EnergyModel.
Import List. Open Scope Z_scope.

(** electric.py:226-233, [uptime]. *)
Definition uptime_of (good : res (list tf)) : res Z := do fs <- good; uptime fs.

(** electric.py:235-265, [average_energy_per_period]; [frame] is the outcome of
    [get_timeframe()]; [Ok None] is NaN. *)
Definition average_energy (sections_given use_uptime : bool) (good : res (list tf)) (frame : res tf) (energy : res Q) (period : Z) : res (option Q) :=
  if sections_given then Err RuntimeError else
  do td <- (if use_uptime then (do u <- uptime_of good; Ok (Some u)) else (do f <- frame; Ok (tf_timedelta f)));
  match td with
  | None => Ok None
  | Some td => if td =? 0 then Ok None else
               do e <- energy;
               Ok (Some (e / (inject_Z td / inject_Z period))%Q)
  end.

(** elecmeter.py:676-680: the section used when none is given. *)
Definition default_section {A} (rows : list (sample A)) : res tf :=
  do t <- hdf_get_timeframe rows tf_cleared; Ok (set_incl t true).

(** Whether a row has no missing value (goodsections.py: [df.dropna()]). *)
Definition complete (r : sample (list (option Z))) : sample bool :=
  (fst r, forallb (fun o => match o with Some _ => true | None => false end) (snd r)).

(** elecmeter.py:618-634, [good_sections], and 581-595, [total_energy], of a meter with
    the rows [rows]; [c] is the chunk size of the store. *)
Definition meter_good (rows : list (sample (list (option Z)))) (msp : Z) (c : nat) : res (list tf) :=
  do s <- default_section rows; good_sections_of msp (hdf_load (map complete rows) tf_cleared [s] 10 c).
Definition meter_energy (columns : list column) (rows : list (sample (list (option Z)))) (msp : Z) (a : actype) (c : nat) : res Q :=
  do s <- default_section rows; do e <- total_energy_of columns msp a (hdf_load rows tf_cleared [s] 0 c); Ok (inject_Z e).
Definition meter_average (columns : list column) (rows : list (sample (list (option Z)))) (msp : Z) (a : actype) (c : nat) (use_uptime : bool) (period : Z) : res (option Q) :=
  average_energy false use_uptime (meter_good rows msp c) (hdf_get_timeframe rows tf_cleared) (meter_energy columns rows msp a c) period.

(** What a group asks of a meter. *)
Record meter := mkMeter { m_good : res (list tf); m_energy : res Q }.

(** metergroup.py:930-943, [good_sections]: of the first meter; for no meter a plain
    list, which has no [uptime]. *)
Definition group_good (ms : list meter) : res (list tf) :=
  match ms with [] => Err AttributeError | m :: _ => m_good m end.
(** metergroup.py:842-873, [total_energy]: the sum; [None] for no meter, which cannot be
    divided. *)
Fixpoint sum_energy (acc : Q) (ms : list meter) : res Q :=
  match ms with [] => Ok acc | m :: r => do e <- m_energy m; sum_energy (acc + e)%Q r end.
Definition group_energy (ms : list meter) : res Q :=
  match ms with [] => Err TypeError | m :: r => do e <- m_energy m; sum_energy e r end.
Definition group_average (ms : list meter) (period : Z) : res (option Q) :=
  average_energy false true (group_good ms) (Err AttributeError) (group_energy ms) period.

(** utils.py:250-253, [offset_alias_to_seconds]: the distance of the first two dates of
    [pd.date_range('00:00', periods=2, freq=alias)], which begins today.  Fixed: 'D',
    'H', '30min', ...; Week: 'W' (Sundays); Month: 'M' (month ends); Business: 'B'. *)
Inductive alias := Fixed (secs : Z) | Week | Month | Business.
(** Today: year, month 1 to 12, day of the week (0 is Monday). *)
Record date := mkDate { d_year : Z; d_month : Z; d_weekday : Z }.

Definition leap (y : Z) : bool := (y mod 4 =? 0) && (negb (y mod 100 =? 0) || (y mod 400 =? 0)).
Definition days_in_month (y m : Z) : Z :=
  if m =? 2 then (if leap y then 29 else 28)
  else if (m =? 4) || (m =? 6) || (m =? 9) || (m =? 11) then 30 else 31.
Definition day : Z := 86400.
Definition alias_seconds (al : alias) (today : date) : Z :=
  match al with
  | Fixed s => s
  | Week => 7 * day
  | Month => (* from the end of this month to the end of the next *)
      day * (if d_month today =? 12 then days_in_month (d_year today + 1) 1 else days_in_month (d_year today) (d_month today + 1))
  | Business => (* the first business day is today, or Monday at the weekend *)
      day * (if d_weekday today =? 4 then 3 else 1)
  end.
