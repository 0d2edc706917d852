(** Model of importing raw data as the REDD and UK-DALE converters do
    (nilmtk/dataset_converters/redd/convert_redd.py,
    nilmtk/dataset_converters/ukdale/convert_ukdale.py).

    Simplifications:
    - names of files are ASCII strings without line breaks;
    - the content of a file is the list of its rows (time and values), or the
      exception [pd.read_csv] raises; values are of any type [V];
    - time zones do not change instants and are left out;
    - [sort_index] is an argument [sorter] (pandas uses an unstable sort);
    - the store is a dictionary from (building, meter) to tables; writing to it
      does not fail;
    - the metadata written at the end are not modelled. *)
From Coq Require Import String Ascii.
From Verif Require Import Base.
Import List. Open Scope list_scope. Open Scope nat_scope.

(** A measurement: physical quantity and AC type ([None]: the empty string). *)
Inductive quantity := Power | Voltage.
Inductive actype := Active | Reactive | Apparent.
Definition measurement := (quantity * option actype)%type.

(** [\d] and [int] of one digit. *)
Definition digit_value (c : ascii) : option Z :=
  let n := nat_of_ascii c in
  if (48 <=? n) && (n <=? 57) then Some (Z.of_nat (n - 48)) else None.
(** ['{:d}'.format(n)] for 0 <= n < 100. *)
Definition digit_char (n : Z) : ascii := ascii_of_nat (48 + Z.to_nat n).
Definition decimal (n : Z) : string :=
  if (n <? 10)%Z then String (digit_char n) EmptyString
  else String (digit_char (n / 10)) (String (digit_char (n mod 10)) EmptyString).

Fixpoint strip_prefix (p s : string) : option string :=
  match p, s with
  | EmptyString, _ => Some s
  | String a p, String b s => if Ascii.eqb a b then strip_prefix p s else None
  | String _ _, EmptyString => None
  end.

(** convert_redd.py:113: [^house_(\d)$] *)
Definition match_house (s : string) : option Z :=
  match strip_prefix "house_" s with
  | Some (String c EmptyString) => digit_value c
  | _ => None
  end.
(** convert_redd.py:124: [^channel_(\d\d?).dat$]: the dot stands for any character. *)
Definition any_then_dat (s : string) : bool :=
  match s with String _ r => String.eqb r "dat" | EmptyString => false end.
Definition match_channel (s : string) : option Z :=
  match strip_prefix "channel_" s with
  | Some (String a rest) =>
      match digit_value a with
      | None => None
      | Some x =>
          let one := if any_then_dat rest then Some x else None in
          match rest with
          | String b rest' =>
              match digit_value b with
              | Some y => if any_then_dat rest' then Some (10 * x + y)%Z else one
              | None => one
              end
          | EmptyString => one
          end
      end
  | _ => None
  end.

Fixpoint insert_int (x : Z) (l : list Z) : list Z :=
  match l with
  | [] => [x]
  | y :: r => if (x <=? y)%Z then x :: l else y :: insert_int x r
  end.
Definition sort_ints (l : list Z) : list Z := fold_right insert_int [] l.

(** convert_redd.py:127-150, [_matching_ints]. *)
Definition matching_ints (f : string -> option Z) (names : list string) : list Z :=
  sort_ints (flat_map (fun s => match f s with Some n => [n] | None => [] end) names).

Section Raw.
  Context {V : Type}.
  Definition rows := list (Z * V).

  (** A directory of a house: names, with the content if it is a file. *)
  Definition listing := list (string * option (res rows)).
  (** The root directory: names, with the listing if it is a directory. *)
  Definition root := list (string * option listing).

  Fixpoint entry {A} (k : string) (l : list (string * A)) : option A :=
    match l with
    | [] => None
    | (k', x) :: r => if String.eqb k k' then Some x else entry k r
    end.

  Definition is_some {A} (x : string * option A) : bool := match snd x with Some _ => true | None => false end.

  (** convert_redd.py:106-113, [_find_all_houses], and 116-124, [_find_all_chans]. *)
  Definition find_all_houses (d : root) : list Z := matching_ints match_house (map fst (filter is_some d)).
  Definition find_all_chans (d : listing) : list Z := matching_ints match_channel (map fst (filter is_some d)).

  Variable sorter : rows -> rows.

  (** convert_redd.py:212-215: [df[~df.index.duplicated(keep='first')]]. *)
  Fixpoint drop_later (seen : list Z) (l : rows) : rows :=
    match l with
    | [] => []
    | r :: l => if existsb (Z.eqb (fst r)) seen then drop_later seen l else r :: drop_later (fst r :: seen) l
    end.

  (** convert_redd.py:209-217, the end of [_load_csv]. *)
  Definition clean (sort_index drop_duplicates : bool) (l : rows) : rows :=
    let l := if sort_index then sorter l else l in
    if drop_duplicates then drop_later [] l else l.

  (** key.py:41-46, [Key._check]. *)
  Definition check_key (h c : Z) : res unit := if (1 <=? h)%Z && (1 <=? c)%Z then Ok tt else Err AssertionError.

  (** convert_redd.py:153-177, [_get_csv_filename], and 198-207, reading the file. *)
  Definition read_channel (d : root) (h c : Z) : res rows :=
    match entry ("house_" ++ decimal h)%string d with
    | Some (Some files) =>
        match entry ("channel_" ++ decimal c ++ ".dat")%string files with
        | Some (Some content) => content
        | _ => Err AssertionError
        end
    | _ => Err AssertionError
    end.

  Definition table := (list measurement * rows)%type.
  Definition store := list ((Z * Z) * table).
  Definition key_eqb (a b : Z * Z) : bool := (fst a =? fst b)%Z && (snd a =? snd b)%Z.
  Fixpoint put (s : store) (k : Z * Z) (t : table) : store :=
    match s with
    | [] => [(k, t)]
    | (k', t') :: r => if key_eqb k k' then (k', t) :: r else (k', t') :: put r k t
    end.
  Fixpoint get (s : store) (k : Z * Z) : option table :=
    match s with
    | [] => None
    | (k', t) :: r => if key_eqb k k' then Some t else get r k
    end.

  (** convert_redd.py:94-100, the table of one channel. *)
  Definition convert_channel (mapping : Z -> Z -> res (list measurement)) (sort_index drop_duplicates : bool) (d : root) (h c : Z) : res table :=
    do _ <- check_key h c;
    do m <- mapping h c;
    do raw <- read_channel d h c;
    Ok (m, clean sort_index drop_duplicates raw).

  (** The loops of convert_redd.py:87-102 and convert_ukdale.py:99-105: [store.put] for
      each key; they stop at the first exception; what was written stays. *)
  Fixpoint write_all (f : Z * Z -> res table) (keys : list (Z * Z)) (s : store) : store * option exn :=
    match keys with
    | [] => (s, None)
    | k :: r => match f k with
                | Err e => (s, Some e)
                | Ok t => write_all f r (put s k t)
                end
    end.

  (** The (house, channel) pairs in the order of the loops of convert_redd.py:86-91. *)
  Definition channels (d : root) : list (Z * Z) :=
    flat_map (fun h => match entry ("house_" ++ decimal h)%string d with
                       | Some (Some files) => map (fun c => (h, c)) (find_all_chans files)
                       | _ => []
                       end) (find_all_houses d).

  (** convert_redd.py:61-103, [_convert]; [None]: the directory does not exist
      (IOError). *)
  Definition convert (mapping : Z -> Z -> res (list measurement)) (sort_index drop_duplicates : bool) (d : option root) (s : store) : store * option exn :=
    match d with
    | None => (s, Some GenericException)
    | Some d => write_all (fun k => convert_channel mapping sort_index drop_duplicates d (fst k) (snd k)) (channels d) s
    end.

  (** convert_redd.py:23-59: [_redd_measurement_mapping_func] and [convert_redd]
      (the store is opened with mode 'w': empty). *)
  Definition redd_mapping (h c : Z) : res (list measurement) := Ok [(Power, Some (if (c <=? 2)%Z then Apparent else Active))].
  Definition convert_redd (d : option root) : store * option exn := convert redd_mapping true false d [].

  (** convert_ukdale.py:33-37 and 59-87: [ac_type_map] is a dictionary from (house, meter) to
      the AC types of power of the meter, in the order of the metadata. *)
  Definition ac_map := list ((Z * Z) * list actype).
  Fixpoint ac_types (m : ac_map) (k : Z * Z) : option (list actype) :=
    match m with
    | [] => None
    | (k', l) :: r => if key_eqb k k' then Some l else ac_types r k
    end.
  Definition ukdale_mapping (m : ac_map) (h c : Z) : res (list measurement) :=
    match ac_types m (h, c) with
    | None => Err KeyError
    | Some [] => Err IndexError
    | Some (t :: _) => Ok [(Power, Some t)]
    end.

  (** convert_ukdale.py:90-107, [_convert_one_sec_data]; [mains_dat h] is the
      content of house_<h>/mains.dat. *)
  Definition one_second (l : list actype) : bool := match l with [Active; Apparent] => true | _ => false end.
  Definition one_sec_columns : list measurement := [(Power, Some Active); (Power, Some Apparent); (Voltage, None)].
  Definition convert_one_sec (m : ac_map) (mains_dat : Z -> res rows) (drop_duplicates : bool) (s : store) : store * option exn :=
    write_all (fun k => do _ <- check_key (fst k) (snd k); do raw <- mains_dat (fst k); Ok (one_sec_columns, clean false drop_duplicates raw))
      (map fst (filter (fun p => one_second (snd p)) m)) s.

  (** convert_ukdale.py:14-56, [convert_ukdale]. *)
  Definition convert_ukdale (m : ac_map) (mains_dat : Z -> res rows) (drop_duplicates : bool) (d : option root) : store * option exn :=
    match convert (ukdale_mapping m) false drop_duplicates d [] with
    | (s, None) => convert_one_sec m mains_dat drop_duplicates s
    | r => r
    end.
End Raw.
Arguments rows : clear implicits.
Arguments listing : clear implicits.
Arguments root : clear implicits.
Arguments table : clear implicits.
Arguments store : clear implicits.
