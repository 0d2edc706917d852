(** Model of the metadata queries (nilmtk/appliance.py:90-149,
    nilmtk/elecmeter.py:308-347, nilmtk/electric.py:87-101,
    nilmtk/metergroup.py:294-383).

    Names and values are numbers; a value is an atom or a list of atoms.  A
    dictionary is a list of items without repeated keys. *)
From Verif Require Import Base.
Open Scope nat_scope.

Inductive value := Atom (n : nat) | ListV (l : list nat).
Definition value_dec : forall x y : value, {x = y} + {x <> y}.
Proof. decide equality; [apply Nat.eq_dec|apply list_eq_dec, Nat.eq_dec]. Defined.
Definition veq (x y : value) : bool := if value_dec x y then true else false.

(** Keys: the fields and the (other) attributes of the identifier tuples, the
    word 'category', and all other words.  [Method n] stands for an attribute that every
    namedtuple has ('count', 'index', '_asdict', ...). *)
Inductive name := TypeN | InstanceN | BuildingN | DatasetN | CategoryN | SynonymsN | Method (n : nat) | Word (n : nat).
Definition name_dec : forall x y : name, {x = y} + {x <> y}.
Proof. decide equality; apply Nat.eq_dec. Defined.

Definition dict := list (name * value).
Fixpoint get (k : name) (d : dict) : option value :=
  match d with [] => None | (k', v) :: d' => if name_dec k k' then Some v else get k d' end.

(** [v in l] for a list in the metadata. *)
Definition in_list (v : value) (l : list nat) : bool := match v with Atom n => existsb (Nat.eqb n) l | ListV _ => false end.
(** [md.get(k)], which is None if the key is absent, against [v]. *)
Definition same_opt (x : option value) (v : value) : bool := match x with Some y => veq y v | None => false end.

(** appliance.py:140-146 and elecmeter.py:336-342: a list in the metadata matches
    each of its members. *)
Definition type_value_matches (w v : value) : bool :=
  match w, v with
  | ListV l, Atom _ => in_list v l
  | _, _ => veq w v
  end.

(** What appliance.py knows about an appliance type: its attributes (with the
    synonyms) and its categories (the values of a dictionary of lists). *)
Record app_type := mkType { t_attrs : dict; t_categories : option (list (list nat)) }.
Record appliance := mkApp { a_metadata : dict }.

(** appliance.py:47-55, [type]: KeyError for an unknown appliance type. *)
Definition type_of (types : value -> option app_type) (a : appliance) : res app_type :=
  match get TypeN (a_metadata a) with
  | Some t => match types t with Some x => Ok x | None => Err KeyError end
  | None => Err KeyError
  end.

(** The argument of [matches]: something false ([None], an empty dictionary),
    a dictionary, or anything else. *)
Inductive query := QEmpty | QDict (d : dict) | QOther.

(** appliance.py:118-148: one key of the query.  'synonyms' of a type are a list
    to which the type itself is appended. *)
Definition app_key (types : value -> option app_type) (allow_synonyms : bool) (a : appliance) (k : name) (v : value) : res bool :=
  match k with
  | TypeN =>
      if allow_synonyms then
        do t <- type_of types a;
        let synonyms := match get SynonymsN (t_attrs t) with Some (ListV l) => l | _ => [] end in
        Ok (in_list v synonyms || same_opt (get TypeN (a_metadata a)) v)
      else Ok (same_opt (get TypeN (a_metadata a)) v)
  | InstanceN => Ok (same_opt (get InstanceN (a_metadata a)) v)
  | Method _ => Ok false
  | _ =>
      match get k (a_metadata a) with
      | Some w => Ok (veq w v)
      | None =>
          if name_dec k CategoryN then
            do t <- type_of types a;
            match t_categories t with
            | Some cs => Ok (in_list v (concat cs))
            | None => Err AttributeError
            end
          else
            do t <- type_of types a;
            match get k (t_attrs t) with
            | Some w => Ok (type_value_matches w v)
            | None => Err KeyError
            end
      end
  end.

(** The loop of both [matches] methods: it goes on after a mismatch. *)
Fixpoint loop (f : name -> value -> res bool) (d : dict) (m : bool) : res bool :=
  match d with
  | [] => Ok m
  | (k, v) :: d' => do b <- f k v; loop f d' (if b then m else false)
  end.
Definition run_query (f : name -> value -> res bool) (q : query) : res bool :=
  match q with
  | QEmpty | QDict [] => Ok true
  | QOther => Err TypeError
  | QDict d => loop f d true
  end.
Definition app_matches (types : value -> option app_type) (allow_synonyms : bool) (a : appliance) (q : query) : res bool :=
  run_query (app_key types allow_synonyms a) q.

(** A meter: identifier, metadata, device (KeyError if the model is unknown) and
    appliances. *)
Record meter := mkMeter { m_instance : value; m_building : value; m_dataset : value; m_metadata : dict; m_device : res dict; m_appliances : list appliance }.

(** elecmeter.py:308-347. *)
Definition meter_key (m : meter) (k : name) (v : value) : res bool :=
  match k with
  | InstanceN => Ok (veq (m_instance m) v)
  | BuildingN => Ok (veq (m_building m) v)
  | DatasetN => Ok (veq (m_dataset m) v)
  | Method _ => Ok false
  | _ =>
      match get k (m_metadata m) with
      | Some w => Ok (veq w v)
      | None =>
          do d <- m_device m;
          match get k d with
          | Some w => Ok (type_value_matches w v)
          | None => Err KeyError
          end
      end
  end.
Definition meter_matches (m : meter) (q : query) : res bool := run_query (meter_key m) q.

(** electric.py:87-101 and metergroup.py:294-298: [matches_appliances] of a meter
    and [matches] of a group: the first match decides. *)
Fixpoint first_match {A} (f : A -> res bool) (l : list A) : res bool :=
  match l with
  | [] => Ok false
  | x :: l' => do b <- f x; if b then Ok true else first_match f l'
  end.
Definition matches_appliances (types : value -> option app_type) (syn : bool) (m : meter) (q : query) : res bool :=
  first_match (fun a => app_matches types syn a q) (m_appliances m).
Definition group_matches (g : list meter) (q : query) : res bool := first_match (fun m => meter_matches m q) g.

(** metergroup.py:347-364, the inner function [get] of [select]: the meters that match one
    query; KeyErrors are swallowed, other exceptions are not. *)
Fixpoint select_get {A} (f : A -> res bool) (l : list A) : res (list A) :=
  match l with
  | [] => Ok []
  | x :: l' =>
      match f x with
      | Err KeyError => select_get f l'
      | Err e => Err e
      | Ok b => do r <- select_get f l'; Ok (if b then x :: r else r)
      end
  end.
Definition select_one {A} (f : A -> query -> res bool) (l : list A) (q : dict) : res (list A) :=
  do r <- select_get (fun x => f x (QDict q)) l;
  match r with [] => Err KeyError | _ => Ok r end.

(** metergroup.py:300-383, [select]: one keyword with a list of values selects for
    each value in turn.  [f] is [matches] or [matches_appliances]. *)
Definition select {A} (f : A -> query -> res bool) (l : list A) (kwargs : dict) : res (list A) :=
  match kwargs with
  | [(k, ListV vs)] => do r <- mapM (fun v => select_one f l [(k, Atom v)]) vs; Ok (concat r)
  | _ => select_one f l kwargs
  end.
