(** Model of nilmtk/stats/totalenergy.py.

    Simplifications:
    - readings are integers, [None] is NaN; power times time is not divided by
      JOULES_PER_KWH, and energy readings are taken in the same unit;
    - a DataFrame is a list of column names (physical quantity, AC type) and
      rows of readings, one per column; column names are not repeated;
    - an empty chunk ([pd.DataFrame()], hdfdatastore.py:68) has no columns;
    - [check_requirements] and metadata are not modelled. *)
From Verif Require Import Base TimeFrameModel ResultsModel StoreModel.
Open Scope Z_scope.

Inductive pquantity := CumulativeEnergy | Energy | Power | OtherQuantity (name : nat).
Inductive actype := Active | Apparent | Reactive.
Definition column := (pquantity * option actype)%type.

Definition pq_eqb (a b : pquantity) : bool :=
  match a, b with
  | CumulativeEnergy, CumulativeEnergy | Energy, Energy | Power, Power => true
  | OtherQuantity n, OtherQuantity m => Nat.eqb n m
  | _, _ => false
  end.
Definition ac_eqb (a b : actype) : bool :=
  match a, b with
  | Active, Active | Apparent, Apparent | Reactive, Reactive => true
  | _, _ => false
  end.
Definition col_eqb (a b : column) : bool :=
  pq_eqb (fst a) (fst b) &&
  match snd a, snd b with Some x, Some y => ac_eqb x y | None, None => true | _, _ => false end.

(** totalenergy.py:55, [PHYSICAL_QUANTITY_PREFS]. *)
Definition pq_prefs : list pquantity := [CumulativeEnergy; Energy; Power].

(** totalenergy.py:58-64: the preferred quantity among the columns of one AC type. *)
Definition select_quantity (columns : list column) (a : actype) : option pquantity :=
  find (fun q => existsb (col_eqb (q, Some a)) columns) pq_prefs.

(** [df[col]]: the readings of one column. *)
Fixpoint column_index (columns : list column) (c : column) : option nat :=
  match columns with
  | [] => None
  | d :: r => if col_eqb c d then Some 0%nat else option_map S (column_index r c)
  end.
Definition series (columns : list column) (df : list (sample (list (option Z)))) (c : column)
  : list (sample (option Z)) :=
  match column_index columns c with
  | None => []
  | Some k => map (fun r => (fst r, nth k (snd r) None)) df
  end.

(** [series.dropna()]. *)
Fixpoint dropna (s : list (sample (option Z))) : list (sample Z) :=
  match s with
  | [] => []
  | (t, Some v) :: r => (t, v) :: dropna r
  | (_, None) :: r => dropna r
  end.

(** [(timedelta_secs.clip(max=max_sample_period) * series.values[:-1]).sum()],
    totalenergy.py:93-98. *)
Fixpoint joules (s : list (sample Z)) (msp : Z) : Z :=
  match s with
  | (t, v) :: (((t', _) :: _) as r) => Z.min (t' - t) msp * v + joules r msp
  | _ => 0
  end.

(** totalenergy.py:80-100, [_energy_for_power_series]. *)
Definition energy_for_power_series (s : list (sample (option Z))) (msp : Z) : Z := joules (dropna s) msp.

(** totalenergy.py:67-75: the energy of one AC type; [Ok None] if there is no
    column for it, or the result is NaN. *)
Definition energy_of_type (columns : list column) (df : list (sample (list (option Z)))) (msp : Z) (a : actype)
  : res (option Z) :=
  match select_quantity columns a with
  | None => Ok None
  | Some q =>
      let s := series columns df (q, Some a) in
      match q with
      | Power => Ok (Some (energy_for_power_series s msp))
      | CumulativeEnergy =>
          match s, last_opt s with
          | x :: _, Some y =>
              Ok (match snd y, snd x with Some b, Some a => Some (b - a) | _, _ => None end)
          | _, _ => Err IndexError
          end
      | Energy => Ok (Some (osum (map snd s)))
      | OtherQuantity _ => Ok None
      end
  end.

(** totalenergy.py:39-77, [get_total_energy]; AC_TYPES = active, apparent,
    reactive (measurement.py:5). *)
Definition get_total_energy (columns : list column) (df : list (sample (list (option Z)))) (msp : Z) : res energies :=
  let columns := match df with [] => [] | _ => columns end in
  do a <- energy_of_type columns df msp Active;
  do p <- energy_of_type columns df msp Apparent;
  do r <- energy_of_type columns df msp Reactive;
  Ok (mkEn a r p).

(** totalenergy.py:18-28, [process] run to exhaustion on a new node. *)
Definition energy_process (columns : list column) (msp : Z) (chunks : gen (chunk (list (option Z))))
  : res (table energies) :=
  do data <- foldM (fun d ch => do e <- get_total_energy columns (c_rows ch) msp; results_append d (c_tf ch) e)
                   (fst chunks) [];
  match snd chunks with Some e => Err e | None => Ok data end.

Definition en_get (a : actype) (e : energies) : option Z :=
  match a with Active => en_active e | Apparent => en_apparent e | Reactive => en_reactive e end.

(** elecmeter.py:581-595, [total_energy] without a cache and without the [Clip] node (see ClipModel): [combined()[ac_type]]
    (results.py:33-40: the sum of the column, NaN skipped). *)
Definition total_energy_of (columns : list column) (msp : Z) (a : actype) (chunks : gen (chunk (list (option Z)))) : res Z :=
  do data <- energy_process columns msp chunks;
  Ok (osum (map (fun r => en_get a (r_val r)) data)).
