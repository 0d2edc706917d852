(** Model of importing the ECO data set
    (nilmtk/dataset_converters/eco/convert_eco.py).

    Simplifications:
    - a directory is the list of its entries in the order [listdir] gives them;
      the content of a file is the list of its lines, each the list of its
      values, or the exception [pd.read_csv] raises; lines do not have more
      values than [names] has columns (missing ones are [nan]);
    - values are of any type [V]; [gone] tells which equal -1; [reactive] is
      the reactive power computed from power and phase angle;
    - [day] is the instant, in seconds, that [pd.date_range] makes of its start
      ([None]: it raises ValueError); [py_int] is [int] of a string; time zones
      do not change instants and are left out;
    - writing an empty frame does nothing (pandas); appending to a table with
      other columns raises ValueError;
    - the metadata written at the end are not modelled. *)
From Coq Require Import String Ascii.
From Verif Require Import Base.
Import List. Open Scope list_scope. Open Scope nat_scope.

Section Eco.
  Context {V : Type}.
  Variable gone : V -> bool.
  Variable reactive : V -> V -> V.
  Variable nan : V.
  Variable day : string -> option Z.
  Variable py_int : string -> option Z.

  Inductive tree := File (content : res (list (list V))) | Dir (entries : list (string * tree)).
  Definition listing := list (string * tree).

  Fixpoint entry (k : string) (l : listing) : option tree :=
    match l with
    | [] => None
    | (k', x) :: r => if String.eqb k k' then Some x else entry k r
    end.

  (** [sub in s] *)
  Definition contains (sub s : string) : bool := match index 0 sub s with Some _ => true | None => false end.
  (** [s[:2]], [s[-3:]], [s[:-4]] *)
  Definition first_two (s : string) : string := substring 0 2 s.
  Definition last_three (s : string) : string := substring (String.length s - 3) 3 s.
  Definition but_last_four (s : string) : string := substring 0 (String.length s - 4) s.
  (** [s.replace('.', ':')] *)
  Fixpoint colons (s : string) : string :=
    match s with
    | EmptyString => EmptyString
    | String c r => String (if Ascii.eqb c "."%char then ":"%char else c) (colons r)
    end.

  (** [l.sort()] *)
  Fixpoint insert_name (x : string) (l : list string) : list string :=
    match l with
    | [] => [x]
    | y :: r => if String.leb x y then x :: l else y :: insert_name x r
    end.
  Definition sort_names (l : list string) : list string := fold_right insert_name [] l.

  Definition is_dir (e : string * tree) : bool := match snd e with Dir _ => true | File _ => false end.
  Definition dirs (l : listing) : list string := map fst (filter is_dir l).

  (** [listdir] of an entry: NotADirectoryError or FileNotFoundError (here
      [GenericException]). *)
  Definition listdir (l : listing) (name : string) : res listing :=
    match entry name l with
    | Some (Dir l') => Ok l'
    | _ => Err GenericException
    end.
  (** [pd.read_csv] of an entry. *)
  Definition read_csv (l : listing) (name : string) : res (list (list V)) :=
    match entry name l with
    | Some (File c) => c
    | _ => Err GenericException
    end.

  (** The two kinds of tables: five columns of a smart meter's phase (power,
      current, voltage, phase angle, reactive power), one of a plug. *)
  Inductive kind := Sm | Plugs.
  Definition kind_eqb (a b : kind) : bool := match a, b with Sm, Sm | Plugs, Plugs => true | _, _ => false end.

  Definition rows := list (Z * list V).
  Definition store := list ((Z * Z) * (kind * rows)).
  Definition key_eqb (a b : Z * Z) : bool := (fst a =? fst b)%Z && (snd a =? snd b)%Z.
  Fixpoint get (s : store) (k : Z * Z) : option (kind * rows) :=
    match s with
    | [] => None
    | (k', t) :: r => if key_eqb k k' then Some t else get r k
    end.
  Fixpoint put (s : store) (k : Z * Z) (t : kind * rows) : store :=
    match s with
    | [] => [(k, t)]
    | (k', t') :: r => if key_eqb k k' then (k', t) :: r else (k', t') :: put r k t
    end.

  (** convert_eco.py:136-140 and 169-175: a new table, or more rows. *)
  Definition write (k : Z * Z) (c : kind) (new : rows) (s : store) : store * option exn :=
    match new with
    | [] => (s, None)
    | _ => match get s k with
           | None => (put s k (c, new), None)
           | Some (c', old) => if kind_eqb c' c then (put s k (c, old ++ new), None) else (s, Some ValueError)
           end
    end.

  (** convert_eco.py:112, 126-128 and 158, 164: one row for each second of
      the day; rows whose power is -1 are left out. *)
  Definition column (i : nat) (r : list V) : V := nth (i - 1) r nan.
  Fixpoint seconds (d : Z) (l : list (list V)) : rows :=
    match l with
    | [] => []
    | r :: l => (d, r) :: seconds (d + 1)%Z l
    end.
  Definition day_rows (start : string) (l : list (list V)) : res rows :=
    match day start with
    | None => Err ValueError
    | Some d => if (Z.of_nat (List.length l) =? 86400)%Z
                then Ok (filter (fun r => negb (gone (hd nan (snd r)))) (seconds d l))
                else Err ValueError
    end.

  (** convert_eco.py:105-110, 115-121. *)
  Definition phase_row (phase : nat) (r : list V) : list V :=
    let p := column (1 + phase) r in
    let a := column (13 + phase) r in
    [p; column (5 + phase) r; column (8 + phase) r; a; reactive p a].

  (** key.py:41-46, [Key._check]. *)
  Definition check_key (b m : Z) : res unit := if (1 <=? b)%Z && (1 <=? m)%Z then Ok tt else Err AssertionError.

  (** A loop that stops at the first exception. *)
  Fixpoint loop {S X} (f : X -> S -> S * option exn) (l : list X) (s : S) : S * option exn :=
    match l with
    | [] => (s, None)
    | x :: r => match f x s with
                | (s', None) => loop f r s'
                | (s', Some e) => (s', Some e)
                end
    end.

  (** The store and the two flags [found_any_sm], [found_any_plug]. *)
  Record state := mkState { e_store : store; e_sm : bool; e_plug : bool }.
  Definition set_store (st : state) (r : store * option exn) : state * option exn := (mkState (fst r) (e_sm st) (e_plug st), snd r).

  (** convert_eco.py:103-140, one phase of one day. *)
  Definition eco_phase (b : Z) (fi : string) (l : list (list V)) (phase : nat) (st : state) : state * option exn :=
    match (do _ <- check_key b (Z.of_nat phase); day_rows (but_last_four fi) (map (phase_row phase) l)) with
    | Err e => (st, Some e)
    | Ok new => set_store st (write (b, Z.of_nat phase) Sm new (e_store st))
    end.
  (** convert_eco.py:99-142, one day of a smart meter. *)
  Definition eco_sm_file (b : Z) (files : listing) (fi : string) (st : state) : state * option exn :=
    let st := mkState (e_store st) true (e_plug st) in
    match read_csv files fi with
    | Err e => (st, Some e)
    | Ok l => loop (eco_phase b fi l) [1; 2; 3] st
    end.
  (** convert_eco.py:155-175, one day of a plug. *)
  Definition eco_plug_file (b m : Z) (files : listing) (fi : string) (st : state) : state * option exn :=
    let st := mkState (e_store st) (e_sm st) true in
    match (do l <- read_csv files fi; day_rows (colons (but_last_four fi)) (map (fun r => [column 1 r]) l)) with
    | Err e => (st, Some e)
    | Ok new => set_store st (write (b, m) Plugs new (e_store st))
    end.

  Definition csv_names (files : listing) : list string := sort_names (filter (contains ".csv") (map fst files)).

  (** convert_eco.py:92-175, one subfolder. *)
  Definition eco_sub (b : Z) (k : kind) (l : listing) (fl : string) (st : state) : state * option exn :=
    match listdir l fl with
    | Err e => (st, Some e)
    | Ok files =>
        match k with
        | Sm => loop (eco_sm_file b files) (csv_names files) st
        | Plugs =>
            match py_int fl with
            | None => (st, Some ValueError)
            | Some n =>
                match check_key b (n + 3) with
                | Err e => (st, Some e)
                | Ok _ => match csv_names files with
                          | [] => (st, Some RuntimeError)
                          | names => loop (eco_plug_file b (n + 3) files) names st
                          end
                end
            end
        end
    end.

  (** convert_eco.py:82-88: the subfolders; with fewer than three of them in a
      folder of plugs, those of the folder that has the building's number. *)
  Definition subfolders (k : kind) (folder : string) (l : listing) : res (listing * list string) :=
    let names := sort_names (dirs l) in
    match k with
    | Sm => Ok (l, names)
    | Plugs => if (List.length names <? 3) then do l' <- listdir l (first_two folder); Ok (l', dirs l')
               else Ok (l, names)
    end.

  (** convert_eco.py:64-175, one folder. *)
  Definition eco_folder (d : listing) (folder : string) (st : state) : state * option exn :=
    if String.eqb (substring 0 1 folder) "." || String.eqb (last_three folder) ".h5" then (st, None)
    else match py_int (first_two folder) with
         | None => (st, Some ValueError)
         | Some b =>
             let go k := match (do l <- listdir d folder; subfolders k folder l) with
                         | Err e => (st, Some e)
                         | Ok (l, names) => loop (eco_sub b k l) names st
                         end in
             if contains "sm_csv" folder then go Sm
             else if contains "plugs" folder then go Plugs
             else (st, None)
         end.

  (** convert_eco.py:38-180, [convert_eco] up to the metadata. *)
  Definition convert_eco (d : listing) : store * option exn :=
    let folders := sort_names (filter (fun s => negb (contains ".txt" s)) (map fst d)) in
    match loop (eco_folder d) folders (mkState [] false false) with
    | (st, Some e) => (e_store st, Some e)
    | (st, None) => (e_store st, if e_plug st && e_sm st then None else Some RuntimeError)
    end.

End Eco.
Arguments tree : clear implicits.
Arguments listing : clear implicits.
Arguments store : clear implicits.
