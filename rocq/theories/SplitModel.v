(** Model of MeterGroup.train_test_split (nilmtk/metergroup.py:1230-1275).

    Times are whole numbers of seconds; durations, records and the split point
    are exact rationals (the code uses floats, and timedelta rounds to
    microseconds). *)
From Verif Require Import Base.
From Coq Require Import QArith Qround.
Open Scope Q_scope.

Definition section := (Z * Z)%type.

(** Python's int(): truncation towards zero. *)
Definition int_of (x : Q) : Z := if Qle_bool 0 x then Qfloor x else Qceiling x.

(** metergroup.py:1249-1250: whole sample periods in a section. *)
Definition records (period : Q) (s : section) : Z := int_of (inject_Z (snd s - fst s) / period).
Definition total (ns : list Z) : Z := fold_right Z.add 0%Z ns.

(** What the loops do with one section: go on with the records that remain,
    or a split point. *)
Inductive step := Go (remaining : Q) | Split (t : Q) | Raise (e : exn).

(** metergroup.py:1263-1275, the [for] loop; [all] is the list [good_sections],
    [i] the index, [ns] the rest of the numbers of records. *)
Fixpoint for_loop (all : list section) (period : Q) (i : nat) (ns : list Z) (remaining : Q) : step :=
  match ns with
  | [] => Go remaining
  | n :: ns' =>
      match Qcompare remaining (inject_Z n) with
      | Gt => for_loop all period (S i) ns' (remaining - inject_Z n)
      | Eq => match nth_error all (S i) with Some s => Split (inject_Z (fst s)) | None => Raise IndexError end
      | Lt => match nth_error all i with Some s => Split (inject_Z (fst s) + period * remaining) | None => Raise IndexError end
      end
  end.

(** metergroup.py:1262, [while records_remaining]: [None] is returned when the
    loop ends.  The loop is not bounded in the code. *)
Fixpoint while_loop (fuel : nat) (all : list section) (period : Q) (ns : list Z) (remaining : Q) : res (option Q) :=
  if Qeq_bool remaining 0 then Ok None
  else match fuel with
  | O => Err OutOfFuel
  | S fuel' =>
      match for_loop all period 0 ns remaining with
      | Go r => while_loop fuel' all period ns r
      | Split t => Ok (Some t)
      | Raise e => Err e
      end
  end.

(** metergroup.py:1230-1275.  [mains] is the mains' good sections and sample
    period, [None] if there are no mains ([None.good_sections] is an AttributeError). *)
Definition train_test_split (fuel : nat) (mains : option (list section * Q)) (fraction : Q) : res (option Q) :=
  if negb (Qle_bool fraction 0) && negb (Qle_bool 1 fraction) then
    match mains with
    | None => Err AttributeError
    | Some (sections, period) =>
        if Qeq_bool period 0 then (match sections with [] => Ok None | _ => Err ZeroDivisionError end)
        else
        let ns := map (records period) sections in
        let in_train := inject_Z (total ns) * fraction in
        match sections with
        | [s] => Ok (Some (inject_Z (fst s) + inject_Z (int_of (in_train * period))))
        | _ => while_loop fuel sections period ns in_train
        end
    end
  else Err AssertionError.
