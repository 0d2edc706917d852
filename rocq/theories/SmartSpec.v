(** Vocabulary for importing the SMART data set. *)
From Coq Require Import String.
From Verif Require Import Base SmartModel.
Import List. Open Scope list_scope. Open Scope nat_scope.

(** The tables of a year: those of the text files whose last but one line mentions 30. *)
Definition mentions (p s : string) : Prop := exists a b, s = (a ++ p ++ b)%string.
Inductive tables_of {V} (y : year V) : list (list string) -> list (frame V) -> Prop :=
  | no_file : tables_of y [] []
  | half_hourly first middle line last r t ts :
      (exists p, first :: middle = p ++ [line; last]) -> mentions "30" line -> y_csv y (first ++ "_" ++ y_name y ++ ".csv")%string = Ok t ->
      tables_of y r ts -> tables_of y ((first :: middle) :: r) (t :: ts)
  | other_period lines line last r ts : (exists p, lines = p ++ [line; last]) -> ~ mentions "30" line -> tables_of y r ts -> tables_of y (lines :: r) ts.
Definition year_tables {V} (y : year V) (ts : list (frame V)) : Prop := tables_of y (y_txt y) ts.

(** A column of a table. *)
Fixpoint col {V} (n : string) (l : list (string * list (option V))) : option (list (option V)) :=
  match l with [] => None | (m, c) :: r => if string_dec n m then Some c else col n r end.
(** The columns that are no meters of their own. *)
Definition totals : list string := ["Date & Time"; "use [kW]"; "Usage [kW]"; "gen [kW]"; "Generation [kW]"; "grid [kW]"; "Grid [kW]"; "Solar [kW]"]%string.
Definition meter_names {V} (t : frame V) : list string :=
  filter (fun n => if in_dec string_dec n totals then false else true) (map fst (f_cols t)).

(** What a year is expected to hold: tables, times and mains in the first of them, and no meter
    twice. *)
Definition is_table {V} (t : frame V) : Prop := Forall (fun c => length (snd c) = f_len t) (f_cols t).
Definition whole_use {V} (t : frame V) : option (list (option V)) :=
  match col "use [kW]" (f_cols t) with Some c => Some c | None => col "Usage [kW]" (f_cols t) end.
Definition well_formed {V} (ts : list (frame V)) : Prop :=
  match ts with
  | [] => True
  | t :: _ => Forall is_table ts /\ col "Date & Time" (f_cols t) <> None /\ whole_use t <> None /\ NoDup ("use"%string :: concat (map meter_names ts))
  end.

(** The readings of the meter called [n] in a year: those of the rows with the same numbers as
    those of the first file. *)
Fixpoint of_some_file {V} (n : string) (ts : list (frame V)) : option (list (option V)) :=
  match ts with [] => None | t :: r => match (if in_dec string_dec n totals then None else col n (f_cols t)) with Some c => Some c | None => of_some_file n r end end.
Definition meter_column {V} (n : string) (ts : list (frame V)) : list (option V) :=
  match (if string_dec n "use" then match ts with [] => None | t :: _ => whole_use t end else of_some_file n ts) with Some c => c | None => [] end.
Definition year_rows {V} (time : V -> Z) (n : string) (ts : list (frame V)) : list (option Z * option V) :=
  match ts with
  | [] => []
  | t :: _ =>
      let dates := match col "Date & Time" (f_cols t) with Some c => c | None => [] end in
      map (fun j => (match nth j dates None with Some v => Some (time v) | None => None end, nth j (meter_column n ts) None)) (seq 0 (f_len t))
  end.
Definition home_rows {V} (time : V -> Z) (n : string) (tss : list (list (frame V))) : list (option Z * option V) := flat_map (year_rows time n) tss.

(** The meters of a home: the mains, then the others in the order in which they appear. *)
Fixpoint firsts (seen l : list string) : list string :=
  match l with [] => [] | n :: r => if in_dec string_dec n seen then firsts seen r else n :: firsts (n :: seen) r end.
Definition meters_of {V} (tss : list (list (frame V))) : list string :=
  firsts [] (flat_map (fun ts => match ts with [] => [] | _ => "use"%string :: concat (map meter_names ts) end) tss).

(** The times of a home can be read. *)
Definition readable_times {V} (stamp : V -> res Z) (time : V -> Z) (tss : list (list (frame V))) : Prop :=
  forall t ts c v, In (t :: ts) tss -> col "Date & Time" (f_cols t) = Some c -> In (Some v) c -> stamp v = Ok (time v).

Definition stored {A} (l : list A) : option (list A) := match l with [] => None | _ => Some l end.

(** A home with data, and one without. *)
Definition good_home {V} (stamp : V -> res Z) (time : V -> Z) (ys : list (year V)) (tss : list (list (frame V))) : Prop :=
  Forall2 year_tables ys tss /\ Forall well_formed tss /\ Exists (fun ts => ts <> []) tss /\ readable_times stamp time tss.
Definition empty_home {V} (ys : list (year V)) : Prop := Forall (fun y => year_tables y []) ys.

(** What meter [m] of home [tss] is to hold: meters are numbered from 1. *)
Definition meter_rows {V} (time : V -> Z) (tss : list (list (frame V))) (m : nat) : option (list (option Z * option V)) :=
  match m with
  | 0 => None
  | S k => match nth_error (meters_of tss) k with Some n => stored (home_rows time n tss) | None => None end
  end.
