(** Model of the correlation between the mains of a building and the sum of its submeters
    (nilmtk/metergroup.py:1679-1682), from the wiring (WiringModel), the loading of single meters and of groups
    (ResampleModel, GLoadModel) and the correlation (CorrModel).

    The group holds meters only, no groups.  Each meter has one power column.  The store has no window, and
    what is loaded fits in one chunk.  Values are exact. *)
From Coq Require Import QArith Reals Qreals.
From Verif Require Import Base TimeFrameModel StoreModel GStatsModel TopModel ColumnsModel ResampleModel GLoadModel CorrModel WiringModel.
Open Scope Z_scope.

(** What a meter has in the store, its device's max_sample_period and its sample period. *)
Record mdata := mkMd { md_rows : list (Z * Q); md_max : Z; md_period : Z }.
Definition power_column : column := (Power, Some (PipelineModel.Known EnergyModel.Active)).
Definition as_gmeter (d : mdata) : gmeter := mkGm [power_column] (map (fun x => (fst x, [Some (snd x)])) (md_rows d)) (md_max d).
Definition to_real (c : samples) : chunk := map (fun x => (fst x, option_map Q2R (snd x))) c.

(** electric.py:637-653 for a single meter: elecmeter.py:420-468, hdfdatastore.py:47-150 without sections.
    A table of at most one row gives an empty DataFrame. *)
Definition meter_series (midnight : Z -> Z) (p : Z) (d : mdata) : list chunk :=
  match md_rows d with
  | [] => [[]]
  | [_] => [[]]
  | rows => [to_real (safe_resample midnight p (ffill_limit (md_max d) p) (map (fun x => (fst x, Some (snd x))) rows))]
  end.

(** electric.py:637-653 for a group: metergroup.py:640-723; the section is the time frame of the group
    (metergroup.py:1375-1390), whose end is the time of the last reading and is not included. *)
Definition group_timeframe (ds : list mdata) : res (option tf) :=
  GStatsModel.get_timeframe (TGroup (map (fun d => TMeter (hdf_get_timeframe (md_rows d) tf_cleared)) ds)).
Definition group_series (midnight : Z -> Z) (p : Z) (ds : list mdata) : res (list chunk) :=
  do t <- group_timeframe ds;
  match t with
  | None => Err TypeError
  | Some t =>
      match tf_start t, tf_end t with
      | Some s, Some e =>
          do x <- load_section false midnight p [power_column] (map as_gmeter ds) s e;
          Ok (map (fun col => to_real (combine (fst x) (snd col))) (snd x))
      | _, _ => Err AttributeError
      end
  end.

(** metergroup.py:574-576; max([]) raises ValueError. *)
Definition group_period (ds : list mdata) : res Z :=
  match ds with [] => Err ValueError | d :: r => Ok (fold_left Z.max (map md_period r) (md_period d)) end.

(** metergroup.py:777-796. *)
Definition several_buildings (ms : list wmeter) : bool :=
  match ms with [] => false | m :: r => existsb (fun x => negb (Nat.eqb (i_building (w_id x)) (i_building (w_id m)))) r end.
Definition house_mains (ms : list wmeter) : res (option wnode) :=
  if several_buildings ms then Err RuntimeError else Ok (mains_of ms).

Section House.
  Variable midnight : Z -> Z.
  Variable data : wmeter -> mdata.
  Definition node_period (n : wnode) : res Z :=
    match n with WMeter m => Ok (md_period (data m)) | WGroup ms => group_period (map data ms) end.
  Definition node_series (p : Z) (n : wnode) : res (list chunk) :=
    match n with WMeter m => Ok (meter_series midnight p (data m)) | WGroup ms => group_series midnight p (map data ms) end.

  (** electric.py:311-374: the other's data are not loaded if there are fewer than two samples. *)
  Definition node_correlation (x y : wnode) : res corr_result :=
    do px <- node_period x;
    do py <- node_period y;
    let p := Z.max px py in
    do xs <- node_series p x;
    if Nat.leb (length (concat xs)) 1 then Ok CNaN else
    do ys <- node_series p y;
    Ok (correlation xs ys).

  (** metergroup.py:827-830: the nodes below the root are meters, since an edge leads to a meter
      (WiringModel.wire). *)
  Definition meters_of_nodes (ns : list wnode) : list wmeter :=
    flat_map (fun n => match n with WMeter m => [m] | WGroup ms => ms end) ns.

  (** metergroup.py:1679-1682; without mains, [None.correlation] raises AttributeError. *)
  Definition mains_correlation (reg : list wmeter) (ms : list wmeter) : res corr_result :=
    do submeters <- downstream_of_mains reg (map WLeaf ms);
    do top <- house_mains ms;
    match top with
    | None => Err AttributeError
    | Some n => node_correlation n (WGroup (meters_of_nodes submeters))
    end.
End House.
