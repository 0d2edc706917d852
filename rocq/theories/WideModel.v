(** Model of importing data sets that come as one table per house, with a column for each
    meter: REFIT (nilmtk/dataset_converters/refit/convert_refit.py) and DRED
    (nilmtk/dataset_converters/dred/convert_dred.py).

    Simplifications:
    - a REFIT file is the list of its columns (name and cells) as [pd.read_csv] names and
      reads them, or the exception it raises; a DRED file is the list of its lines, none
      blank;
    - cells are of any type [V]; [stamp] is what [pd.to_datetime] makes of one ([None]: it
      raises ValueError); [nan] is the missing value;
    - [argsort] gives the order in which [sort_index] puts the rows (pandas uses an unstable
      sort);
    - time zones do not change instants and are left out;
    - the store is that of RawModel; the metadata written at the end are not modelled. *)
From Coq Require Import String Ascii.
From Verif Require Import Base RawModel.
Import List. Open Scope list_scope. Open Scope nat_scope.

Section Wide.
  Context {V : Type}.
  Variable stamp : V -> option Z.
  Variable nan : V.
  Variable argsort : list Z -> list nat.

  Definition csv := list (string * list V).
  (** A directory: the names of its files and their contents. *)
  Definition folder := list (string * res csv).

  (** [df.sort_index()]: index and columns in the order of the index. *)
  Definition pick {A} (order : list nat) (l : list A) : list A :=
    flat_map (fun i => match nth_error l i with Some x => [x] | None => [] end) order.
  Definition frame := (list Z * list (list V))%type.
  Definition sort_index (f : frame) : frame := let o := argsort (fst f) in (pick o (fst f), map (pick o) (snd f)).

  (** [pd.to_datetime(column)]. *)
  Definition to_datetime (l : list V) : res (list Z) := mapM (fun v => match stamp v with Some t => Ok t | None => Err ValueError end) l.

  (** convert_refit.py:111. *)
  Definition usecols : list string :=
    ["Unix"; "Aggregate"; "Appliance1"; "Appliance2"; "Appliance3"; "Appliance4"; "Appliance5"; "Appliance6"; "Appliance7"; "Appliance8"; "Appliance9"]%string.
  Definition mem (s : string) (l : list string) : bool := existsb (String.eqb s) l.

  (** convert_refit.py:133-153, [_load_csv]: ValueError if a column of [usecols] is missing; the
      columns stay in the order of the file. *)
  Definition refit_load (f : csv) : res frame :=
    if forallb (fun c => mem c (map fst f)) usecols then
      let kept := filter (fun c => mem (fst c) usecols) f in
      match entry "Unix" kept with
      | None => Err KeyError
      | Some u => do t <- to_datetime u; Ok (t, map snd (filter (fun c => negb (String.eqb (fst c) "Unix")) kept))
      end
    else Err ValueError.

  (** convert_refit.py:94, 103. *)
  Definition csv_name (prefix suffix : string) (h : Z) : string := (prefix ++ "House" ++ suffix ++ decimal h ++ ".csv")%string.

  (** convert_refit.py:116-129 and convert_dred.py:97-109: one meter for each column. *)
  Fixpoint put_columns (m : measurement) (b chan : Z) (index : list Z) (cols : list (list V)) (s : store V) : store V :=
    match cols with
    | [] => s
    | c :: r => put_columns m b (chan + 1) index r (put s (b, (chan + 1)%Z) ([m], combine index c))
    end.

  (** convert_refit.py:106-115. *)
  Definition refit_house (d : folder) (prefix suffix : string) (h : Z) : res frame :=
    match entry (csv_name prefix suffix h) d with
    | None => Err RuntimeError
    | Some content => do f <- content; do fr <- refit_load f; Ok (sort_index fr)
    end.

  (** convert_refit.py:90-131: the loop over the houses; what was written stays when it
      stops. *)
  Fixpoint refit_houses (d : folder) (prefix suffix : string) (houses : list Z) (id : Z) (s : store V) : store V * option exn :=
    match houses with
    | [] => (s, None)
    | h :: r =>
        match refit_house d prefix suffix h with
        | Err e => (s, Some e)
        | Ok fr => refit_houses d prefix suffix r (id + 1) (put_columns (Power, Some Active) (id + 1) 0 (fst fr) (snd fr) s)
        end
    end.

  (** convert_refit.py:84. *)
  Definition refit_ids : list Z := [1; 2; 3; 4; 5; 6; 7; 8; 9; 10; 11; 12; 13; 15; 16; 17; 18; 19; 20; 21]%Z.

  (** convert_refit.py:34-58 and 80-131; the names are chosen at the first house (95-104). [None]:
      the directory does not exist (IOError). *)
  Definition convert_refit (d : option folder) : store V * option exn :=
    match d with
    | None => ([], Some GenericException)
    | Some d =>
        let original := match entry (csv_name "" "_" 1) d with Some _ => true | None => false end in
        refit_houses d (if original then "" else "CLEAN_") (if original then "_" else "") refit_ids 0 []
    end.

  (** convert_dred.py:113-133, [_load_csv]: [pd.read_csv(skiprows=skip, header=None)] takes the
      number of columns from the first line, fills shorter lines and raises for longer ones
      (ValueError, as for no line at all); [usecols] are 14 names (86-92): the first column is
      the time. *)
  Definition dred_columns : nat := 14.
  Definition dred_load (skip : nat) (lines : list (list V)) : res frame :=
    match skipn skip lines with
    | [] => Err ValueError
    | first :: r =>
        let n := length first in
        if existsb (fun l => n <? length l) r then Err ValueError
        else if negb (n =? dred_columns) then Err ValueError
        else do t <- to_datetime (map (fun l => nth 0 l nan) (first :: r));
             Ok (t, map (fun j => map (fun l => nth j l nan) (first :: r)) (seq 1 (n - 1)))
    end.

  (** convert_dred.py:32-57 and 78-110. *)
  Definition convert_dred (file : res (list (list V))) : store V * option exn :=
    match (do lines <- file; dred_load 3 lines) with
    | Err e => ([], Some e)
    | Ok fr => let fr := sort_index fr in (put_columns (Power, Some Apparent) 1 0 (fst fr) (snd fr) [], None)
    end.
End Wide.
Arguments csv : clear implicits.
Arguments folder : clear implicits.
Arguments frame : clear implicits.
