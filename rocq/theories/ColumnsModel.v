(** Model of the choice of columns to load (nilmtk/elecmeter.py:245-283 and
    462-563, nilmtk/measurement.py:4-28).

    The names of physical quantities are those of PHYSICAL_QUANTITIES and
    [OtherPQ]; a column is a physical quantity and an AC type ([None] for '').
    The order of [list(set(...))] depends on string hashing, so it is an
    argument [setlist] of which only "same elements, no duplicates" is used. *)
From Verif Require Import Base EnergyModel PipelineModel.
Open Scope nat_scope.

Inductive pq := Power | EnergyPQ | CumulativeEnergy | Voltage | Current | Pf | Frequency | PowerFactor | StatePQ | PhaseAngle | OtherPQ (n : nat).
Definition pq_dec : forall x y : pq, {x = y} + {x <> y}.
Proof. decide equality. apply Nat.eq_dec. Defined.
Definition acname_dec : forall x y : acname, {x = y} + {x <> y}.
Proof. decide equality; [decide equality|apply Nat.eq_dec]. Defined.
Definition column := (pq * option acname)%type.
Definition column_dec : forall x y : column, {x = y} + {x <> y}.
Proof. decide equality; [decide equality; apply acname_dec|apply pq_dec]. Defined.

(** A measurement in the device's metadata: physical quantity and, if there is
    one, type. *)
Definition measurement := column.

(** measurement.py:8-10, 16-28. *)
Definition PHYSICAL_QUANTITIES : list pq := [Power; EnergyPQ; CumulativeEnergy; Voltage; Current; Pf; Frequency; PowerFactor; StatePQ; PhaseAngle].
Definition check_ac_type (a : acname) : res unit := if in_dec acname_dec a AC_TYPES then Ok tt else Err MeasurementError.
Definition check_physical_quantity (p : pq) : res unit := if in_dec pq_dec p PHYSICAL_QUANTITIES then Ok tt else Err MeasurementError.

(** elecmeter.py:245-283. *)
Definition available_columns (setlist : list column -> list column) (ms : list measurement) : list column := setlist ms.
Definition available_physical_quantities (ms : list measurement) : list pq := nodup pq_dec (map fst ms).
Definition available_ac_types (ms : list measurement) (p : pq) : res (list acname) :=
  if in_dec pq_dec p PHYSICAL_QUANTITIES then
    Ok (flat_map (fun m => if pq_dec (fst m) p then match snd m with Some a => [a] | None => [] end else []) ms)
  else Err ValueError.

(** A request: [None], a name, or a list of names (a list in a list is left
    out).  'best' is only special as the whole of [ac_type]. *)
Inductive ac_arg := AcNone | AcBest | AcName (a : acname) | AcList (l : list acname).
Inductive pq_arg := PqNone | PqName (p : pq) | PqList (l : list pq).

(** elecmeter.py:474-486, [_ac_type_to_columns] (only called with a name or a
    list). *)
Definition ac_name_cols (setlist : list column -> list column) (ms : list measurement) (a : acname) : res (list column) :=
  do _ <- check_ac_type a;
  Ok (filter (fun c => match snd c with Some b => if acname_dec b a then true else false | None => false end) (available_columns setlist ms)).
Definition ac_type_to_columns (setlist : list column -> list column) (ms : list measurement) (best : acname) (arg : ac_arg) : res (list column) :=
  match arg with
  | AcNone => Ok []
  | AcBest => ac_name_cols setlist ms best
  | AcName a => ac_name_cols setlist ms a
  | AcList l => do cs <- mapM (ac_name_cols setlist ms) l; Ok (setlist (concat cs))
  end.

(** elecmeter.py:488-500, [_physical_quantity_to_columns]. *)
Definition pq_name_cols (setlist : list column -> list column) (ms : list measurement) (p : pq) : res (list column) :=
  do _ <- check_physical_quantity p;
  Ok (filter (fun c => if pq_dec (fst c) p then true else false) (available_columns setlist ms)).
Definition physical_quantity_to_columns (setlist : list column -> list column) (ms : list measurement) (arg : pq_arg) : res (list column) :=
  match arg with
  | PqNone => Ok []
  | PqName p => pq_name_cols setlist ms p
  | PqList l => do cs <- mapM (pq_name_cols setlist ms) l; Ok (setlist (concat cs))
  end.

(** elecmeter.py:502-525, [_get_columns_with_best_ac_type]. *)
Definition best_name (ms : list measurement) (p : pq) : res (list column) :=
  do _ <- check_physical_quantity p;
  if in_dec pq_dec p (available_physical_quantities ms) then
    do types <- available_ac_types ms p;
    match select_best_ac_type types None with
    | Ok a => Ok [(p, Some a)]
    | Err _ => Ok []
    end
  else Ok [].
Definition columns_with_best_ac_type (setlist : list column -> list column) (ms : list measurement) (arg : pq_arg) : res (list column) :=
  match arg with
  | PqNone => do cs <- mapM (best_name ms) (available_physical_quantities ms); Ok (setlist (concat cs))
  | PqList l => do cs <- mapM (best_name ms) l; Ok (setlist (concat cs))
  | PqName p => best_name ms p
  end.

(** Truth value of an argument. *)
Definition ac_given (a : ac_arg) : bool := match a with AcNone => false | AcList [] => false | _ => true end.
Definition pq_given (p : pq_arg) : bool := match p with PqNone => false | PqList [] => false | _ => true end.
Definition is_nil {A} (l : list A) : bool := match l with [] => true | _ => false end.

(** elecmeter.py:527-578, [_convert_physical_quantity_and_ac_type_to_cols]: the
    columns; [best] is the string 'best' as an (invalid) AC type. *)
Definition convert (setlist : list column -> list column) (ms : list measurement) (best : acname) (p : pq_arg) (a : ac_arg) (columns : option (list column)) : res (list column) :=
  match columns with
  | Some (c :: cs) =>
      if ac_given a || pq_given p then Err ValueError
      else if forallb (fun x => if in_dec column_dec x (available_columns setlist ms) then true else false) (c :: cs) then Ok (c :: cs)
      else Err MeasurementError
  | _ =>
      if negb (ac_given a || pq_given p) then Ok (available_columns setlist ms)
      else
        match a with
        | AcBest =>
            do cs <- columns_with_best_ac_type setlist ms p;
            if is_nil cs then Err MeasurementError else Ok cs
        | _ =>
            do cs <- (if ac_given a then ac_type_to_columns setlist ms best a else Ok []);
            let msg1 := ac_given a && is_nil cs in
            if pq_given p then
              do cp <- physical_quantity_to_columns setlist ms p;
              let msg2 := is_nil cp in
              let both := if is_nil cs then cp else setlist (filter (fun c => if in_dec column_dec c cp then true else false) cs) in
              let msg3 := negb (is_nil cs) && is_nil both in
              if msg1 || msg2 || msg3 then Err MeasurementError else Ok both
            else if msg1 then Err MeasurementError else Ok cs
        end
  end.
