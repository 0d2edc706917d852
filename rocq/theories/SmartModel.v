(** Model of importing the SMART data set (nilmtk/dataset_converters/smart/convert_smart.py).

    Simplifications:
    - a year's directory is the list of its *.txt files in the order of [glob], each the list of
      its lines without the newline, and what [pd.read_csv] makes of a CSV file of a given name:
      a table whose column names are distinct, or an exception;
    - [stamp] is [pd.to_datetime(…, utc=True)] of a cell; [None] stands for NaN and NaT; the
      conversion to 'US/Eastern' keeps the instants;
    - a year in which two joined columns have one name raises ValueError when it is
      concatenated (pandas raises there or when the column is stored, line 146);
    - where the first file of a year has no mains, inserting an empty DataFrame raises IndexError
      (pandas >= 2.1; older versions fail in other ways);
    - the store is a dictionary; writing a table without rows does nothing (pandas); what was
      stored before an exception is not modelled, nor are the metadata. *)
From Coq Require Import String Ascii.
From Verif Require Import Base.
Import List. Open Scope list_scope. Open Scope nat_scope.

Section Smart.
  Context {V : Type}.
  Variable stamp : V -> res Z.

  (** A DataFrame with the index 0, 1, …: number of rows and columns. *)
  Record frame := mkFrame { f_len : nat; f_cols : list (string * list (option V)) }.
  Definition names (f : frame) : list string := map fst (f_cols f).
  Definition has (n : string) (l : list string) : bool := existsb (String.eqb n) l.
  Fixpoint column (n : string) (l : list (string * list (option V))) : option (list (option V)) :=
    match l with [] => None | (m, c) :: r => if String.eqb n m then Some c else column n r end.

  Record year := mkYear { y_name : string; y_txt : list (list string); y_csv : string -> res frame }.

  (** convert_smart.py:218-244, [_find_all_csv_paths]: the names of the CSV files; [lines[-2]] of
      fewer than two lines raises. *)
  Fixpoint starts (p s : string) : bool :=
    match p, s with
    | EmptyString, _ => true
    | String a p', String b s' => Ascii.eqb a b && starts p' s'
    | _, _ => false
    end.
  Fixpoint contains (p s : string) : bool := starts p s || match s with EmptyString => false | String _ r => contains p r end.
  Definition csv_name (y : year) (lines : list string) : res (option string) :=
    match rev lines with
    | _ :: l :: _ => if contains "30" l then Ok (Some (hd "" lines ++ "_" ++ y_name y ++ ".csv")%string) else Ok None
    | _ => Err IndexError
    end.
  Definition find_all_csv_paths (y : year) : res (list string) :=
    do l <- mapM (csv_name y) (y_txt y);
    Ok (flat_map (fun o => match o with Some n => [n] | None => [] end) l).

  (** convert_smart.py:155-177, [_preprocess_csv]. *)
  Definition dropped : list string :=
    ["Solar [kW]"; "Grid [kW]"; "Usage [kW]"; "use [kW]"; "gen [kW]"; "Generation [kW]"; "grid [kW]"; "Date & Time"]%string.
  Definition preprocess_csv (f : frame) : frame := mkFrame (f_len f) (filter (fun c => negb (has (fst c) dropped)) (f_cols f)).

  (** A column on the index 0, …, n-1. *)
  Definition align (n : nat) (c : list (option V)) : list (option V) := map (fun j => nth j c None) (seq 0 n).

  (** [left.join(right, lsuffix='_1', rsuffix='_2')]: on the row numbers of [left]; names that a
      suffix makes equal on one side raise MergeError, a ValueError. *)
  Definition suffixed (other : list string) (s : string) (n : string) : string := if has n other then (n ++ s)%string else n.
  Fixpoint distinct (l : list string) : bool := match l with [] => true | n :: r => negb (has n r) && distinct r end.
  Definition join (left right : frame) : res frame :=
    let l := map (suffixed (names right) "_1") (names left) in
    let r := map (suffixed (names left) "_2") (names right) in
    if distinct l && distinct r
    then Ok (mkFrame (f_len left) (combine l (map snd (f_cols left)) ++ combine r (map (fun c => align (f_len left) (snd c)) (f_cols right))))
    else Err ValueError.

  (** [df.insert(i, name, series)]. *)
  Definition insert_at (i : nat) (n : string) (c : list (option V)) (f : frame) : res frame :=
    if has n (names f) then Err ValueError
    else Ok (mkFrame (f_len f) (firstn i (f_cols f) ++ (n, align (f_len f) c) :: skipn i (f_cols f))).

  (** convert_smart.py:97-133: a year; the column of times found last, which stays bound from
      year to year and from home to home, and the table, if there are files. *)
  Definition load_year (date : option (list (option V))) (y : year) : res (option (list (option V)) * option frame) :=
    do paths <- find_all_csv_paths y;
    do tables <- mapM (y_csv y) paths;
    match tables with
    | [] => Ok (date, None)
    | t :: ts =>
        let mains := match column "use [kW]" (f_cols t) with Some c => Some c | None => column "Usage [kW]" (f_cols t) end in
        let date' := match column "Date & Time" (f_cols t) with Some c => Some c | None => date end in
        do joined <- foldM (fun f t => join f (preprocess_csv t)) ts (preprocess_csv t);
        match date' with
        | None => Err UnboundLocalError
        | Some d =>
            do f <- insert_at 0 "Date & Time" d joined;
            match mains with
            | None => Err IndexError
            | Some m => do f <- insert_at 1 "use" m f; Ok (date', Some f)
            end
        end
    end.

  (** convert_smart.py:135, [pd.concat([df_all_years, df_year], ignore_index=True, sort=False)]. *)
  Definition part (n : string) (f : frame) : list (option V) :=
    match column n (f_cols f) with Some c => c | None => repeat None (f_len f) end.
  Definition concat_years (a y : frame) : res frame :=
    if distinct (names y)
    then Ok (mkFrame (f_len a + f_len y)
               (map (fun n => (n, part n a ++ part n y)) (names a ++ filter (fun n => negb (has n (names a))) (names y))))
    else Err ValueError.
  Definition load_years (date : option (list (option V))) (ys : list year) : res (option (list (option V)) * frame) :=
    foldM (fun st y => do r <- load_year (fst st) y;
                       match snd r with
                       | None => Ok (fst r, snd st)
                       | Some f => do a <- concat_years (snd st) f; Ok (fst r, a)
                       end) ys (date, mkFrame 0 []).

  (** convert_smart.py:137-152: the channels of a home, numbered from 1. *)
  Definition stamps (c : list (option V)) : res (list (option Z)) :=
    mapM (fun o => match o with None => Ok None | Some v => do t <- stamp v; Ok (Some t) end) c.
  Definition channels (f : frame) : res (list (list (option Z * option V))) :=
    match column "Date & Time" (f_cols f) with
    | None => Err KeyError
    | Some d => do ts <- stamps d; Ok (map (fun c => combine ts (snd c)) (filter (fun c => negb (String.eqb (fst c) "Date & Time")) (f_cols f)))
    end.

  Definition store := list ((nat * nat) * list (option Z * option V)).
  Fixpoint get (s : store) (b m : nat) : option (list (option Z * option V)) :=
    match s with
    | [] => None
    | ((b', m'), t) :: r => if (b =? b') && (m =? m') then Some t else get r b m
    end.
  Fixpoint put_channels (b m : nat) (l : list (list (option Z * option V))) : store :=
    match l with
    | [] => []
    | t :: r => match t with [] => [] | _ => [((b, m), t)] end ++ put_channels b (S m) r
    end.

  (** convert_smart.py:62-153, [_convert]; homes of [_find_all_houses] (180-192); [home] lists
      the directories of a home ([_find_year], 195-214). *)
  Fixpoint convert_homes (home : string -> res (list year)) (hs : list string) (b : nat) (date : option (list (option V))) : res store :=
    match hs with
    | [] => Ok []
    | h :: r =>
        do ys <- home h;
        do loaded <- load_years date ys;
        do l <- channels (snd loaded);
        do rest <- convert_homes home r (S b) (fst loaded);
        Ok (put_channels b 1 l ++ rest)
    end.
  Definition convert_smart (home : string -> res (list year)) : res store := convert_homes home ["A"; "B"; "C"]%string 1 None.
End Smart.
Arguments frame V : clear implicits. Arguments year V : clear implicits. Arguments store V : clear implicits.
