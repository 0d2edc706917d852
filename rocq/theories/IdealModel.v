(** Model of importing the IDEAL and HIPE data sets
    (nilmtk/dataset_converters/ideal/convert_ideal.py,
    nilmtk/dataset_converters/hipe/convert_hipe.py).

    Simplifications:
    - a directory is the list of its entries in the order in which the
      operating system gives them; there are no links; names are ASCII;
    - the content of a file is the list of its rows (time and value), or the
      exception [pd.read_csv] raises; times are in nanoseconds; time zones do
      not change instants and are left out;
    - [other_int] is what [int] makes of a string that does not consist of
      digits only ([None]: ValueError);
    - [sort_index] is an argument [sorter] (pandas uses an unstable sort);
    - the store is a dictionary from (building, meter) to tables; writing a
      table without rows does nothing (pandas), other writing does not fail;
    - the metadata written at the end are not modelled. *)
From Coq Require Import String Ascii QArith Qabs.
From Verif Require Import Base.
Import List. Open Scope list_scope. Open Scope nat_scope.

Inductive actype := Active | Apparent.

Section Files.
  Context {V : Type}.
  Definition rows := list (Z * V).

  Inductive tree := File (content : res (list (Z * V))) | Dir (entries : list (string * tree)).
  Definition listing := list (string * tree).

  Fixpoint entry (k : string) (l : listing) : option tree :=
    match l with
    | [] => None
    | (k', x) :: r => if String.eqb k k' then Some x else entry k r
    end.
  Definition is_dir (e : string * tree) : bool := match snd e with Dir _ => true | File _ => false end.

  (** [os.walk]: the names of all directories below, top down. *)
  Fixpoint walk_tree (t : tree) : list string :=
    match t with
    | File _ => []
    | Dir l => map fst (filter is_dir l) ++ flat_map (fun e => walk_tree (snd e)) l
    end.
  Definition walk (l : listing) : list string := walk_tree (Dir l).

  (** [pd.read_csv] of an entry. *)
  Definition read_csv (l : listing) (name : string) : res rows :=
    match entry name l with
    | Some (File c) => c
    | _ => Err GenericException
    end.

  Definition store := list ((Z * Z) * (actype * rows)).
  Definition key_eqb (a b : Z * Z) : bool := (fst a =? fst b)%Z && (snd a =? snd b)%Z.
  Fixpoint get (s : store) (k : Z * Z) : option (actype * rows) :=
    match s with
    | [] => None
    | (k', t) :: r => if key_eqb k k' then Some t else get r k
    end.
  Fixpoint put (s : store) (k : Z * Z) (t : actype * rows) : store :=
    match s with
    | [] => [(k, t)]
    | (k', t') :: r => if key_eqb k k' then (k', t) :: r else (k', t') :: put r k t
    end.
  Definition write (k : Z * Z) (t : actype * rows) (s : store) : store :=
    match snd t with [] => s | _ => put s k t end.

  (** key.py:41-46, [Key._check]. *)
  Definition check_key (b m : Z) : res unit := if (1 <=? b)%Z && (1 <=? m)%Z then Ok tt else Err AssertionError.

  (** A loop over files that writes one table for each and stops at the first
      exception. *)
  Fixpoint write_all {X} (f : X -> res ((Z * Z) * (actype * rows))) (l : list X) (s : store) : store * option exn :=
    match l with
    | [] => (s, None)
    | x :: r => match f x with
                | Ok (k, t) => write_all f r (write k t s)
                | Err e => (s, Some e)
                end
    end.
End Files.
Arguments tree : clear implicits.
Arguments listing : clear implicits.
Arguments rows : clear implicits.
Arguments store : clear implicits.

(** ['_'], ['c']: [s.split(c)] *)
Fixpoint split_on (c : ascii) (s : string) : list string :=
  match s with
  | EmptyString => [EmptyString]
  | String a r => if Ascii.eqb a c then EmptyString :: split_on c r
                  else match split_on c r with
                       | [] => [String a EmptyString]
                       | x :: l => String a x :: l
                       end
  end.

Definition digit_value (c : ascii) : option Z :=
  let n := nat_of_ascii c in
  if (48 <=? n) && (n <=? 57) then Some (Z.of_nat (n - 48)) else None.
Definition is_digit (c : ascii) : bool := match digit_value c with Some _ => true | None => false end.
(** [re.sub('\D', '', s)] *)
Fixpoint digits (s : string) : string :=
  match s with
  | EmptyString => EmptyString
  | String a r => if is_digit a then String a (digits r) else digits r
  end.
Fixpoint all_digits (s : string) : bool :=
  match s with EmptyString => true | String a r => is_digit a && all_digits r end.
(** [int] of a string of digits, after those that gave [n] *)
Fixpoint value (s : string) (n : Z) : Z :=
  match s with
  | EmptyString => n
  | String a r => value r (match digit_value a with Some d => 10 * n + d | None => n end)%Z
  end.
(** [int(re.sub('\D', '', s))] *)
Definition int_digits (s : string) : res Z :=
  match digits s with EmptyString => Err ValueError | x => Ok (value x 0) end.

Fixpoint prefixed (p s : string) : bool :=
  match p, s with
  | EmptyString, _ => true
  | String a p, String b s => Ascii.eqb a b && prefixed p s
  | String _ _, EmptyString => false
  end.
(** [s] ends with [e]. *)
Fixpoint ends (e s : string) : bool :=
  String.eqb e s || match s with EmptyString => false | String _ r => ends e r end.
(** The pattern [p + '*' + e] of [glob]. *)
Definition globbed (p e s : string) : bool :=
  prefixed p s && ends e (substring (String.length p) (String.length s - String.length p) s).

Section Ideal.
  Context {V : Type}.
  Variable sorter : rows V -> rows V.
  Variable other_int : string -> option Z.

  (** [int(s)] *)
  Definition py_int (s : string) : res Z :=
    match s with
    | EmptyString => Err ValueError
    | _ => if all_digits s then Ok (value s 0)
           else match other_int s with Some n => Ok n | None => Err ValueError end
    end.

  (** convert_ideal.py:142-148, 153-157, 170-179: the names of the files
      [home*.csv.gz] of a folder. *)
  Definition home_files (d : listing V) : list string := filter (globbed "home" ".csv.gz") (map fst d).

  (** [home_, room_, sensor_, category_, subtype_ = file.name.split('_')] *)
  Definition parts (name : string) : res (string * string * string * string) :=
    match split_on "_" name with
    | [home; room; sensor; category; _] => Ok (home, room, sensor, category)
    | _ => Err ValueError
    end.
  Definition electric (category : string) : bool :=
    String.eqb category "electric-mains" || String.eqb category "electric-appliance".

  (** convert_ideal.py:148-151 and 157-160: the homes of a folder. *)
  Definition home_ids (d : listing V) : res (list Z) :=
    do l <- mapM (fun name =>
      do p <- parts name;
      let '(home, _, _, category) := p in
      if electric category then (do h <- int_digits home; Ok [h]) else Ok []) (home_files d);
    Ok (concat l).

  (** [join(ideal_path, folder)] as a directory; [glob] finds nothing in one
      that does not exist. *)
  Definition folder_of (d : listing V) (folder : string) : option (listing V) :=
    match entry folder d with Some (Dir l) => Some l | _ => None end.
  Definition globs (d : listing V) (folder : string) : listing V :=
    match folder_of d folder with Some l => l | None => [] end.

  (** convert_ideal.py:141-162, [mains_plus_appliance_home_id]. *)
  Definition both_homes (d : listing V) (folders : list string) : res (list Z) :=
    match folders with
    | f0 :: f1 :: _ =>
        do appliance <- home_ids (globs d f1);
        do mains <- home_ids (globs d f0);
        Ok (filter (fun h => existsb (Z.eqb h) appliance) mains)
    | _ => Err IndexError
    end.

  (** convert_ideal.py:164-193, [_find_all_houses_sensor]. *)
  Record found := mkFound { f_name : string; f_home : Z; f_sensor : string; f_category : string }.
  Definition find_one (valid : list Z) (name : string) : res (list found) :=
    do p <- parts name;
    let '(home, room, sensor, category) := p in
    if electric category then
      do h <- int_digits home;
      if existsb (Z.eqb h) valid then
        do _ <- int_digits room;
        if String.eqb (substring 0 6 sensor) "sensor"
        then Ok [mkFound name h (substring 6 (String.length sensor - 6) sensor) category]
        else Err AssertionError
      else Ok []
    else Ok [].
  Definition find_all (d : listing V) (valid : list Z) : res (list found) :=
    do l <- mapM (find_one valid) (home_files d); Ok (concat l).

  (** convert_ideal.py:51-57. *)
  Definition ideal_type (category : string) : actype :=
    if String.eqb category "electric-appliance" then Active else Apparent.

  (** convert_ideal.py:198-237, [_load_csv] with sorting and without dropping
      duplicates: times are cut to seconds. *)
  Definition ideal_load (d : listing V) (name : string) : res (rows V) :=
    do l <- read_csv d name;
    Ok (sorter (map (fun r => (fst r / 1000000000, snd r))%Z l)).

  (** convert_ideal.py:115-136, one file. *)
  Definition ideal_file (d : listing V) (f : found) : res ((Z * Z) * (actype * rows V)) :=
    do m <- py_int (if String.eqb (f_category f) "electric-appliance" then f_sensor f
                    else hd EmptyString (split_on "c" (f_sensor f)));
    do _ <- check_key (f_home f) m;
    do t <- ideal_load d (f_name f);
    Ok ((f_home f, m), (ideal_type (f_category f), t)).

  (** convert_ideal.py:88-138, [_convert]. *)
  Definition ideal_folder (d : listing V) (valid : list Z) (folder : string) (s : store V) : store V * option exn :=
    match folder_of d folder with
    | None => (s, Some GenericException)
    | Some l => match find_all l valid with
                | Err e => (s, Some e)
                | Ok fs => write_all (ideal_file l) fs s
                end
    end.
  Fixpoint ideal_folders (d : listing V) (valid : list Z) (folders : list string) (s : store V) : store V * option exn :=
    match folders with
    | [] => (s, None)
    | f :: r => match ideal_folder d valid f s with
                | (s', None) => ideal_folders d valid r s'
                | (s', Some e) => (s', Some e)
                end
    end.

  (** convert_ideal.py:25-86, [convert_ideal]. *)
  Definition wanted (name : string) : bool :=
    String.eqb name "household_sensordata" || String.eqb name "rooms_appliance_sensordata".
  Definition convert_ideal (d : listing V) : store V * option exn :=
    let folders := filter wanted (walk d) in
    match both_homes d folders with
    | Err e => ([], Some e)
    | Ok valid => ideal_folders d valid folders []
    end.
End Ideal.

Section Hipe.
  Variable sorter : rows (option Q) -> rows (option Q).

  (** convert_hipe.py:56-68. *)
  Definition machines : list (Z * string) :=
    [(1%Z, "MainTerminal"); (2%Z, "ChipPress"); (3%Z, "ChipSaw"); (4%Z, "HighTemperatureOven");
     (5%Z, "PickAndPlaceUnit"); (6%Z, "ScreenPrinter"); (7%Z, "SolderingOven"); (8%Z, "VacuumOven");
     (9%Z, "VacuumPump1"); (10%Z, "VacuumPump2"); (11%Z, "WashingMachine")]%string.

  (** convert_hipe.py:88-92, [_find_all_channels]: the first file. *)
  Definition find_channel (d : listing (option Q)) (m : Z * string) : res (Z * string) :=
    match filter (globbed (snd m) ".csv") (map fst d) with
    | f :: _ => Ok (fst m, f)
    | [] => Err IndexError
    end.

  (** convert_hipe.py:47-48. *)
  Definition hipe_type (chan : Z) : actype := if (chan <? 2)%Z then Apparent else Active.

  (** convert_hipe.py:95-116, [_load_csv] with sorting ([sort_index] is the
      string ["Europe/Berlin"]) and without dropping duplicates: kW become W,
      and negative values positive. *)
  Definition watts (v : option Q) : option Q := match v with None => None | Some q => Some (Qabs (q * 1000)) end.
  Definition hipe_load (d : listing (option Q)) (name : string) : res (rows (option Q)) :=
    do l <- read_csv d name;
    Ok (map (fun r => (fst r, watts (snd r))) (sorter l)).

  (** convert_hipe.py:74-84, one channel. *)
  Definition hipe_file (d : listing (option Q)) (c : Z * string) : res ((Z * Z) * (actype * rows (option Q))) :=
    do _ <- check_key 1 (fst c);
    do t <- hipe_load d (snd c);
    Ok ((1%Z, fst c), (hipe_type (fst c), t)).

  (** convert_hipe.py:18-85. *)
  Definition convert_hipe (d : listing (option Q)) : store (option Q) * option exn :=
    match mapM (find_channel d) machines with
    | Err e => ([], Some e)
    | Ok chans => write_all (hipe_file d) chans []
    end.
End Hipe.
