(** Model of importing the HES data
    (nilmtk/dataset_converters/hes/convert_hes.py).

    Simplifications:
    - a file is missing, or it is the list of the chunks [pd.read_csv] yields; a
      chunk is its rows, or the exception raised while reading it;
    - house ids, appliance codes and readings are integers; the rounding of
      [astype(np.float32)] is left out;
    - [sort_index] is an argument [sorter] (pandas uses an unstable sort);
    - the store is a dictionary from (building, meter) to tables; writing to it
      does not fail; of the YAML files only the meters, appliances and their
      numbers are kept, and [convert_yaml_to_hdf5] does not fail;
    - the list of house ids (108-111) is read but its values are never used. *)
From Verif Require Import Base.
Import List. Open Scope list_scope. Open Scope Z_scope.

(** convert_hes.py:48, a row: 'house id', 'appliance code', 'date' and 'time'
    ([None]: not in the format expected), 'data'. *)
Record row := mkRow { house : Z; code : Z; moment : option Z; data : Z }.
Definition chunk := list row.
Definition file := option (list (res chunk)).
Definition table := list (Z * Z).

(** convert_hes.py:51-53. *)
Definition is_mains (c : Z) : bool := (c =? 240) || (c =? 241).
Definition is_temperature (c : Z) : bool := (251 <=? c) && (c <? 256).
Definition is_circuit (c : Z) : bool := ((208 <=? c) && (c <? 218)) || (c =? 222).

(** [x in l], [l.index(x)]. *)
Definition isin (x : Z) (l : list Z) : bool := existsb (Z.eqb x) l.
Fixpoint index_of (x : Z) (l : list Z) : res nat :=
  match l with
  | [] => Err ValueError
  | y :: r => if x =? y then Ok 0%nat else do n <- index_of x r; Ok (Datatypes.S n)
  end.

(** The keys of [chunk.groupby(column)]: each value once, ascending. *)
Fixpoint insert_key (x : Z) (l : list Z) : list Z :=
  match l with
  | [] => [x]
  | y :: r => if x <? y then x :: l else if x =? y then l else y :: insert_key x r
  end.
Definition keys_of (l : list Z) : list Z := fold_right insert_key [] l.

(** A dictionary with integers as keys. *)
Fixpoint lookup {A} (k : Z) (l : list (Z * A)) : option A :=
  match l with [] => None | (k', x) :: r => if k =? k' then Some x else lookup k r end.
Fixpoint update {A} (k : Z) (x : A) (l : list (Z * A)) : list (Z * A) :=
  match l with
  | [] => [(k, x)]
  | (k', y) :: r => if k =? k' then (k', x) :: r else (k', y) :: update k x r
  end.

(** The store: tables of (building, meter). *)
Definition store := list ((nat * nat) * table).
Definition same_key (a b : nat * nat) : bool := Nat.eqb (fst a) (fst b) && Nat.eqb (snd a) (snd b).
Fixpoint get (k : nat * nat) (s : store) : option table :=
  match s with [] => None | (k', t) :: r => if same_key k k' then Some t else get k r end.
(** datastore/hdfdatastore.py:151-165, [append]. *)
Fixpoint append (k : nat * nat) (t : table) (s : store) : store :=
  match s with
  | [] => [(k, t)]
  | (k', u) :: r => if same_key k k' then (k', u ++ t) :: r else (k', u) :: append k t r
  end.

(** The variables of the loop: [house_codes], [house_appliance_codes], [store]. *)
Record state := mkState { house_codes : list Z; appliance_codes : list (Z * list Z); tables : store }.
Definition empty : state := mkState [] [] [].

Section Hes.
  Variable sorter : table -> table.

  (** convert_hes.py:149-153: the times of a chunk, and [data] times ten. *)
  Definition convert_row (r : row) : res (Z * row) :=
    match moment r with Some t => Ok (t, mkRow (house r) (code r) (Some t) (data r * 10)) | None => Err ValueError end.

  (** convert_hes.py:245-256, [_process_meter_in_chunk]. *)
  Definition process_meter (b m : nat) (rows : list (Z * row)) (s : store) : store :=
    append (b, m) (sorter (map (fun r => (fst r, data (snd r))) rows)) s.

  (** convert_hes.py:166-170: one turn of the loop over appliances. *)
  Definition do_code (h : Z) (b : nat) (rows : list (Z * row)) (st : state) (c : Z) : res state :=
    match lookup h (appliance_codes st) with
    | None => Err KeyError
    | Some l =>
        let l := if isin c l then l else l ++ [c] in
        do i <- index_of c l;
        Ok (mkState (house_codes st) (update h l (appliance_codes st)) (process_meter b (i + 1) rows (tables st)))
    end.

  (** convert_hes.py:156-170: one turn of the loop over houses. *)
  Definition do_house (rows : list (Z * row)) (st : state) (h : Z) : res state :=
    let hc := if isin h (house_codes st) then house_codes st else house_codes st ++ [h] in
    let ac := match lookup h (appliance_codes st) with Some _ => appliance_codes st | None => appliance_codes st ++ [(h, [])] end in
    do b <- index_of h hc;
    foldM (do_code h (b + 1) (filter (fun r => house (snd r) =? h) rows))
      (keys_of (map (fun r => code (snd r)) rows)) (mkState hc ac (tables st)).

  (** convert_hes.py:145-170: one chunk. *)
  Definition do_chunk (st : state) (c : chunk) : res state :=
    do rows <- mapM convert_row c;
    foldM (do_house rows) (keys_of (map (fun r => house (snd r)) rows)) st.

  (** What has been written when an exception ends the conversion stays: each
      step is followed by the state it leaves. A chunk that raises is taken to
      leave nothing of its own ([convert_row] raises before the first write, and
      [do_house] never raises, see HesProofs). *)
  Fixpoint do_chunks (limit : option Z) (i : Z) (cs : list (res chunk)) (st : state) : state * option exn :=
    match cs with
    | [] => (st, None)
    | Err e :: _ => (st, Some e)
    | Ok c :: cs =>
        if match limit with Some n => n <=? i | None => false end then (st, None)
        else match do_chunk st c with
             | Err e => (st, Some e)
             | Ok st => do_chunks limit (i + 1) cs st
             end
    end.

  (** convert_hes.py:127-172: the loop over files. *)
  Fixpoint do_files (limit : option Z) (fs : list file) (st : state) : state * option exn :=
    match fs with
    | [] => (st, None)
    | None :: fs => do_files limit fs st
    | Some cs :: fs =>
        match do_chunks limit 0 cs st with
        | (st, Some e) => (st, Some e)
        | (st, None) => do_files limit fs st
        end
    end.

  (** convert_hes.py:103-106: the table of appliances: code, and name with type. *)
  Variables name type : Type.
  Variable type_eqb : type -> type -> bool.
  Definition appliance := (name * type * nat * nat)%type. (* name, type, instance, meter *)

  Fixpoint count (t : type) (l : list appliance) : nat :=
    match l with
    | [] => 0%nat
    | (_, t', _, _) :: r => if type_eqb t t' then Datatypes.S (count t r) else count t r
    end.

  (** convert_hes.py:191-223: the loop over the codes of a house; the counter of
      a type is the number of appliances of the type so far. *)
  Fixpoint describe (names : list (Z * (name * type))) (all todo : list Z) (meters : list nat) (apps : list appliance) : res (list nat * list appliance) :=
    match todo with
    | [] => Ok (meters, apps)
    | c :: todo =>
        do i <- index_of c all;
        if is_mains c then Ok (meters, apps)
        else if is_circuit c then Ok (meters, apps)
        else if is_temperature c then Ok (meters, apps)
        else match lookup c names with
             | None => Err IndexError
             | Some (n, t) => describe names all todo (meters ++ [(i + 1)%nat]) (apps ++ [(n, t, (count t apps + 1)%nat, (i + 1)%nat)])
             end
    end.

  (** A building: instance, original name, meters, appliances. *)
  Definition building := (nat * Z * list nat * list appliance)%type.

  (** convert_hes.py:180-232. *)
  Definition describe_house (names : list (Z * (name * type))) (st : state) (h : Z) : res building :=
    do i <- index_of h (house_codes st);
    match lookup h (appliance_codes st) with
    | None => Err KeyError
    | Some l => do d <- describe names l l [] []; Ok ((i + 1)%nat, h, fst d, snd d)
    end.

  (** convert_hes.py:92-242, [convert_hes]. The keyword [squeeze] of [pd.read_csv]
      (59, called at 109) exists before pandas 2.0 only: with a later version the
      call raises, after the output file was opened (100) and so emptied.
      The result: the tables in the output file, the metadata in it if they are
      written, and the exception. *)
  Definition convert_hes (pandas2 : bool) (names : list (Z * (name * type))) (limit : option Z) (fs : list file)
    : store * option (list building) * option exn :=
    if pandas2 then ([], None, Some TypeError)
    else match do_files limit fs empty with
         | (st, Some e) => (tables st, None, Some e)
         | (st, None) =>
             match mapM (describe_house names st) (house_codes st) with
             | Err e => (tables st, None, Some e)
             | Ok bs => (tables st, Some bs, None)
             end
         end.
End Hes.
Arguments count {name type}. Arguments describe {name type}. Arguments describe_house {name type}. Arguments convert_hes sorter {name type}.
