(** Model of retrieving meters from a group by key (nilmtk/metergroup.py:169-302,
    403-475, 486-491, 543-572, 777-796, nilmtk/electric.py:87-101). *)
From Verif Require Import Base.
Open Scope Z_scope.

(** Python values that are used as keys or are parts of identifiers.  Strings and the
    keys of dictionaries are numbered.  [MeterID i b d] is an ElecMeterID;
    [GroupID l] is a MeterGroupID whose field [meters] lists the values [l];
    [Thing n] is any other value (None, a float, ...).  Everything that the
    code puts in a set is taken to be hashable. *)
Inductive obj :=
  | Int (n : Z) | Bool (b : bool) | Str (s : nat) | Tup (l : list obj) | Lst (l : list obj)
  | Dict (d : list (nat * obj)) | MeterID (i b d : obj) | GroupID (l : list obj) | Thing (n : nat).

(** Python's [==] on these values.  Both identifier classes are namedtuples
    (elecmeter.py:18, metergroup.py:38), which are equal to tuples with the same
    items, and True == 1.  [norm] forgets such differences. *)
Fixpoint norm (x : obj) : obj :=
  match x with
  | Int n => Int n
  | Bool b => Int (if b then 1 else 0)
  | Str s => Str s
  | Tup l => Tup (map norm l)
  | Lst l => Lst (map norm l)
  | Dict d => Dict (map (fun p => (fst p, norm (snd p))) d)
  | MeterID i b d => Tup [norm i; norm b; norm d]
  | GroupID l => Tup [Tup (map norm l)]
  | Thing n => Thing n
  end.
Fixpoint eqb_raw (x y : obj) {struct x} : bool :=
  let fix all (l l' : list obj) {struct l} : bool :=
    match l, l' with
    | [], [] => true
    | a :: l1, a' :: l1' => eqb_raw a a' && all l1 l1'
    | _, _ => false
    end in
  let fix items (l l' : list (nat * obj)) {struct l} : bool :=
    match l, l' with
    | [], [] => true
    | (k, a) :: l1, (k', a') :: l1' => Nat.eqb k k' && eqb_raw a a' && items l1 l1'
    | _, _ => false
    end in
  match x, y with
  | Int n, Int m => Z.eqb n m
  | Bool b, Bool b' => Bool.eqb b b'
  | Str s, Str s' => Nat.eqb s s'
  | Tup l, Tup l' => all l l'
  | Lst l, Lst l' => all l l'
  | Dict d, Dict d' => items d d'
  | MeterID i b d, MeterID i' b' d' => eqb_raw i i' && eqb_raw b b' && eqb_raw d d'
  | GroupID l, GroupID l' => all l l'
  | Thing n, Thing m => Nat.eqb n m
  | _, _ => false
  end.
Definition py_eq (x y : obj) : bool := eqb_raw (norm x) (norm y).
(** [x in l] *)
Definition mem (x : obj) (l : list obj) : bool := existsb (py_eq x) l.
(** [set(l) == set(l')] *)
Definition same_set (l l' : list obj) : bool := forallb (fun x => mem x l') l && forallb (fun x => mem x l) l'.

Section Items.
(** Appliances, and [appliance.matches] (appliance.py:90-149; see MatchModel). *)
Context {app : Type}.

(** An ElecMeter (identifier, whether it is a site meter, its appliances) or a
    MeterGroup.  Names and disabled meters of groups play no part here. *)
Inductive node :=
  | Meter (i b d : obj) (site : bool) (apps : list app)
  | Grp (ms : list node).

(** elecmeter.py: identifier; metergroup.py:543-547. *)
Fixpoint ident (x : node) : obj :=
  match x with Meter i b d _ _ => MeterID i b d | Grp ms => GroupID (map ident ms) end.
(** metergroup.py:549-551. *)
Fixpoint instance (x : node) : obj :=
  match x with Meter i _ _ _ _ => i | Grp ms => Tup (map instance ms) end.

(** metergroup.py:553-556 and 569-572 with utils.py:146-153: no value, one value, or a
    tuple of several.  Several values are never equal to the single building or
    data set of a key, so they are not kept. *)
Inductive place := NoPlace | OnePlace (x : obj) | Many.
Definition is_one (x : obj) (p : place) : bool := match p with OnePlace y => py_eq x y | _ => false end.
Definition simplest (l : list place) : place :=
  match l with
  | [] => NoPlace
  | NoPlace :: l' => if forallb (fun p => match p with NoPlace => true | _ => false end) l' then NoPlace else Many
  | OnePlace x :: l' => if forallb (is_one x) l' then OnePlace x else Many
  | Many :: _ => Many
  end.
Fixpoint building (x : node) : place :=
  match x with Meter _ b _ _ _ => OnePlace b | Grp ms => simplest (map building ms) end.
Fixpoint dataset (x : node) : place :=
  match x with Meter _ _ d _ _ => OnePlace d | Grp ms => simplest (map dataset ms) end.

(** metergroup.py:838-840. *)
Fixpoint is_site (x : node) : bool :=
  match x with Meter _ _ _ s _ => s | Grp ms => existsb is_site ms end.

Definition is_group (x : node) : bool := match x with Grp _ => true | _ => false end.
Definition members (x : node) : list node := match x with Grp ms => ms | _ => [] end.

(** What a lookup returns: a meter or an existing group, None (a group
    without mains), or a new MeterGroup. *)
Inductive found := One (x : node) | Nothing | New (l : list found).

(** elecmeter.py:308-347 and metergroup.py:298-302, [matches] for the query
    {'building': b, 'dataset': d}: both are fields of a meter's identifier. *)
Fixpoint in_place (b d : obj) (x : node) : bool :=
  match x with
  | Meter _ b' d' _ _ => py_eq b' b && py_eq d' d
  | Grp ms => existsb (in_place b d) ms
  end.

(** metergroup.py:304-383 and 777-796: select(building=b, dataset=d).mains(). *)
Definition mains_of (ms : list node) (b d : obj) : res found :=
  match filter (in_place b d) ms with
  | [] => Err KeyError
  | sel =>
      match simplest (map building sel) with
      | Many => Err RuntimeError
      | _ => Ok (match filter is_site sel with [] => Nothing | [x] => One x | l => New (map One l) end)
      end
  end.

(** The first element that satisfies the test, else KeyError. *)
Definition first_such (p : node -> bool) (l : list node) : res found :=
  match find p l with Some x => Ok (One x) | None => Err KeyError end.

(** metergroup.py:211-233, an ElecMeterID. *)
Definition get_id (ms : list node) (i b d : obj) : res found :=
  match i with
  | Tup l =>
      match find (fun g => same_set (match instance g with Tup k => k | _ => [] end) l && is_one b (building g) && is_one d (dataset g)) (filter is_group ms) with
      | Some g => Ok (One g)
      | None => first_such (fun x => py_eq (ident x) (MeterID i b d)) ms
      end
  | _ => if py_eq i (Int 0) then mains_of ms b d else first_such (fun x => py_eq (ident x) (MeterID i b d)) ms
  end.

(** metergroup.py:234-239, a MeterGroupID, and 241-251, a list of identifiers. *)
Definition get_group (ms : list node) (l : list obj) : res found :=
  first_such (fun g => same_set (map ident (members g)) l) (filter is_group ms).
Definition is_tuple (x : obj) : bool := match x with Tup _ | MeterID _ _ _ | GroupID _ => true | _ => false end.
Definition get_list (ms : list node) (l : list obj) : res found :=
  if forallb is_tuple l then
    first_such (fun x => match x with Grp ms' => same_set (map ident ms') l | _ => false end) ms
  else Err TypeError.

(** metergroup.py:486-491, [appliances] of a group: a set, which [order] lists. *)
Fixpoint appliances (order : list app -> list app) (x : node) : list app :=
  match x with Meter _ _ _ _ apps => apps | Grp ms => order (concat (map (appliances order) ms)) end.
(** electric.py:87-101. *)
Fixpoint first_match (f : app -> res bool) (l : list app) : res bool :=
  match l with [] => Ok false | x :: l' => do b <- f x; if b then Ok true else first_match f l' end.
(** Exactly one, else an exception. *)
Definition exactly_one (l : list node) : res node :=
  match l with [] => Err KeyError | [x] => Ok x | _ => Err GenericException end.
(** metergroup.py:263-274, a dictionary. *)
Fixpoint filterM (f : node -> res bool) (l : list node) : res (list node) :=
  match l with [] => Ok [] | x :: l' => do b <- f x; do r <- filterM f l'; Ok (if b then x :: r else r) end.
Definition get_dict (matches : app -> list (nat * obj) -> res bool) (order : list app -> list app) (ms : list node) (q : list (nat * obj)) : res found :=
  do l <- filterM (fun x => first_match (fun a => matches a q) (appliances order x)) ms;
  do x <- exactly_one l; Ok (One x).

(** metergroup.py:275-296, a number: what each meter of the group adds to
    meters_found, and the lookup itself. *)
Fixpoint candidates (k : Z) (x : node) : res (list node) :=
  match x with
  | Meter i _ _ _ _ =>
      match i with
      | Int _ | Bool _ => Ok (if py_eq i (Int k) then [x] else [])
      | Tup l | Lst l => Ok (if mem (Int k) l then [x] else [])
      | _ => Ok []
      end
  | Grp ms =>
      if mem (Int k) (map instance ms) then
        let fix all (l : list node) : res (list node) :=
          match l with [] => Ok [] | y :: l' => do c <- candidates k y; do r <- all l'; Ok (c ++ r) end in
        do c <- all ms; do y <- exactly_one c; Ok [y]
      else Ok []
  end.
Definition get_int (ms : list node) (k : Z) : res found :=
  do cs <- mapM (candidates k) ms; do x <- exactly_one (concat cs); Ok (One x).

(** The numbers of the strings 'type' and 'instance'. *)
Definition type_key : nat := 0%nat.
Definition instance_key : nat := 1%nat.

(** metergroup.py:172-296, [__getitem__]. *)
Fixpoint getitem (matches : app -> list (nat * obj) -> res bool) (order : list app -> list app) (ms : list node) (key : obj) : res found :=
  match key with
  | Str s => get_dict matches order ms [(type_key, Str s); (instance_key, Int 1)]
  | MeterID i b d => get_id ms i b d
  | GroupID l => get_group ms l
  | Lst l => get_list ms l
  | Tup [Str s; n] => get_dict matches order ms [(type_key, Str s); (instance_key, n)]
  | Tup [k1; k2] =>
      do x <- getitem matches order ms k1;
      do y <- getitem matches order ms k2;
      Ok (New [x; y])
  | Tup [i; b; d] => get_id ms i b d
  | Tup _ => Err TypeError
  | Dict q => get_dict matches order ms q
  | Int k => get_int ms k
  | Bool _ | Thing _ => Err TypeError
  end.

(** metergroup.py:403-444, [from_list]: the loop over the identifiers, with the
    set of those already processed; [assemble x] is what is appended for [x].
    A value that cannot be in a set raises the same TypeError as other
    values do. *)
Fixpoint assemble (matches : app -> list (nat * obj) -> res bool) (order : list app -> list app) (ms : list node) (x : obj) : res found :=
  let fix run (seen : list obj) (l : list obj) : res (list found) :=
    match l with
    | [] => Ok []
    | y :: l' =>
        if mem y seen then run seen l'
        else do m <- assemble matches order ms y; do r <- run (y :: seen) l'; Ok (m :: r)
    end in
  match x with
  | MeterID i b d => getitem matches order ms (MeterID i b d)
  | GroupID l | Tup l =>
      match getitem matches order ms (GroupID l) with
      | Err KeyError => do r <- run [] l; Ok (New r)
      | r => r
      end
  | _ => Err TypeError
  end.
Fixpoint from_list_onto (matches : app -> list (nat * obj) -> res bool) (order : list app -> list app) (ms : list node) (seen : list obj) (l : list obj) : res (list found) :=
  match l with
  | [] => Ok []
  | y :: l' =>
      if mem y seen then from_list_onto matches order ms seen l'
      else do m <- assemble matches order ms y; do r <- from_list_onto matches order ms (y :: seen) l'; Ok (m :: r)
  end.
Definition from_list (matches : app -> list (nat * obj) -> res bool) (order : list app -> list app) (ms : list node) (l : list obj) : res found :=
  do r <- from_list_onto matches order ms [] l; Ok (New r).

(** metergroup.py:446-475, [from_other_metergroup].  [_replace] with a field that the
    tuple does not have raises ValueError.  from_list is called on a new,
    empty group, and its result is dropped. *)
Definition replace_dataset (dataset : obj) (x : obj) : res obj :=
  match x with
  | MeterID (Tup l) b _ => Ok (Tup (map (fun i => MeterID i b dataset) l))
  | MeterID i b _ => Ok (MeterID i b dataset)
  | _ => Err ValueError
  end.
Definition from_other (matches : app -> list (nat * obj) -> res bool) (order : list app -> list app) (other : list node) (dataset : obj) : res node :=
  do ids <- mapM (replace_dataset dataset) (map ident other);
  do _ <- from_list matches order [] ids;
  Ok (Grp []).
End Items.
Arguments node : clear implicits.
Arguments found : clear implicits.
