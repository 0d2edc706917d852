(** Model of the extraction of activity scripts (nilmtk/dataset.py:157-206).

    [Series.sort_index] (default algorithm, not stable) is an argument: any
    function that gives a permutation in the order of time.  The file that is
    written is a list of (key, script); assignment replaces an earlier script
    of the same key.  Appliances are identified by their type (a number; that
    two types differ only by a space and an underscore is left out) and
    instance. *)
From Verif Require Import Base ActivationsModel OnModel.
Open Scope nat_scope.

Definition script := list (Z * bool).

(** dataset.py:189-193: [activation.index[0]] and [activation.index[-1]]. *)
Definition first_time (a : list sample) : res Z := match a with [] => Err IndexError | s :: _ => Ok (fst s) end.
Definition last_time (a : list sample) : res Z := match last_opt a with None => Err IndexError | Some s => Ok (fst s) end.

(** dataset.py:189-199: the script of one meter. *)
Definition activity_script (sort_index : script -> script) (activations : list (list sample)) : res script :=
  do l <- mapM (fun a => do s <- first_time a; do e <- last_time a; Ok (s, e)) activations;
  Ok (sort_index (map (fun p => (fst p, true)) l ++ map (fun p => (snd p, false)) l)).

(** A submeter: its dominant appliance, if there is one, and what
    [get_activations()] gives. *)
Record submeter := { dominant : option (nat * nat); activations_of : res (list (list sample)) }.

Definition skey := (nat * (nat * nat))%type.
Definition skey_eqb (a b : skey) : bool := (fst a =? fst b) && ((fst (snd a) =? fst (snd b)) && (snd (snd a) =? snd (snd b))).

(** [store[key] = script] *)
Fixpoint put (key : skey) (s : script) (file : list (skey * script)) : list (skey * script) :=
  match file with
  | [] => [(key, s)]
  | (k, v) :: r => if skey_eqb k key then (k, s) :: r else (k, v) :: put key s r
  end.

(** dataset.py:181-204, [get_activity_script]: [buildings] are the instance of
    each building and its submeters. *)
Definition write_meter (sort_index : script -> script) (building : nat) (file : list (skey * script)) (m : submeter) : res (list (skey * script)) :=
  match dominant m with
  | None => Err AttributeError
  | Some app =>
      do acts <- activations_of m;
      do s <- activity_script sort_index acts;
      Ok (put (building, app) s file)
  end.
Fixpoint write_meters (sort_index : script -> script) (building : nat) (file : list (skey * script)) (l : list submeter) : res (list (skey * script)) :=
  match l with
  | [] => Ok file
  | m :: r => do file <- write_meter sort_index building file m; write_meters sort_index building file r
  end.
Fixpoint write_buildings (sort_index : script -> script) (file : list (skey * script)) (l : list (nat * list submeter)) : res (list (skey * script)) :=
  match l with
  | [] => Ok file
  | (b, ms) :: r => do file <- write_meters sort_index b file ms; write_buildings sort_index file r
  end.
Definition get_activity_script (sort_index : script -> script) (buildings : list (nat * list submeter)) : res (list (skey * script)) :=
  write_buildings sort_index [] buildings.
