(** Model of the labels of appliances, meters and groups of meters
    (nilmtk/appliance.py:72-88, nilmtk/elecmeter.py:174-243,
    nilmtk/metergroup.py:524-537, 1661-1672, nilmtk/utils.py:370-371).

    Simplifications:
    - strings are of characters of codes below 256; those from 128 on print as
      themselves and have no case;
    - metadata are records: the type (a string) and instance (an integer) of an
      appliance, and the name (a string) of a meter, may be missing; [a_dominant] and [m_site] are the truth values
      of the entries 'dominant_appliance' and 'site_meter';
    - warnings are not modelled;
    - the order of a set is an argument [order]. *)
From Coq Require Import String Ascii DecimalString.
From Verif Require Import Base.
Import List. Open Scope list_scope. Open Scope nat_scope.

(** [str(n)] of an integer. *)
Definition str_int (n : Z) : string := NilZero.string_of_int (Z.to_int n).

(** [repr] of a string. *)
Definition hex (n : nat) : ascii := ascii_of_nat (if n <? 10 then 48 + n else 87 + n).
Definition quote : ascii := "'"%char.
Definition dquote : ascii := ascii_of_nat 34.
Definition backslash : ascii := ascii_of_nat 92.
Definition escape (q c : ascii) : string :=
  let n := nat_of_ascii c in
  if Ascii.eqb c q || Ascii.eqb c backslash then String backslash (String c EmptyString)
  else if n =? 9 then String backslash "t"
  else if n =? 10 then String backslash "n"
  else if n =? 13 then String backslash "r"
  else if (n <? 32) || (n =? 127) then String backslash (String "x" (String (hex (n / 16)) (String (hex (n mod 16)) EmptyString)))
  else String c EmptyString.
Fixpoint escapes (q : ascii) (s : string) : string :=
  match s with EmptyString => EmptyString | String c r => (escape q c ++ escapes q r)%string end.
Fixpoint has_char (c : ascii) (s : string) : bool :=
  match s with EmptyString => false | String a r => Ascii.eqb a c || has_char c r end.
Definition repr (s : string) : string :=
  let q := if has_char quote s && negb (has_char dquote s) then dquote else quote in
  String q (escapes q s ++ String q EmptyString).

(** [s.upper()], [s.lower()], [s.capitalize()] *)
Definition upper_char (c : ascii) : ascii :=
  let n := nat_of_ascii c in if (97 <=? n) && (n <=? 122) then ascii_of_nat (n - 32) else c.
Definition lower_char (c : ascii) : ascii :=
  let n := nat_of_ascii c in if (65 <=? n) && (n <=? 90) then ascii_of_nat (n + 32) else c.
Fixpoint map_chars (f : ascii -> ascii) (s : string) : string :=
  match s with EmptyString => EmptyString | String c r => String (f c) (map_chars f r) end.
Definition upper := map_chars upper_char.
Definition capitalize (s : string) : string :=
  match s with EmptyString => EmptyString | String c r => String (upper_char c) (map_chars lower_char r) end.

(** [sep.join(l)] *)
Fixpoint join (sep : string) (l : list string) : string :=
  match l with
  | [] => EmptyString
  | [x] => x
  | x :: r => (x ++ sep ++ join sep r)%string
  end.

(** utils.py:370-371, [capitalise_first_letter]; [None] is not subscriptable. *)
Definition capitalise_first_letter (s : option string) : res string :=
  match s with
  | None => Err TypeError
  | Some EmptyString => Err IndexError
  | Some (String c r) => Ok (String (upper_char c) r)
  end.

Record appliance := mkAppl { a_type : option string; a_instance : option Z; a_original : option string; a_dominant : bool }.

Definition str_opt (f : string -> string) (s : option string) : string := match s with None => "None" | Some x => f x end.
(** [str(tuple(self.identifier))] *)
Definition str_id (a : appliance) : string :=
  ("(" ++ str_opt repr (a_type a) ++ ", " ++ match a_instance a with None => "None" | Some n => str_int n end ++ ")")%string.

Definition is_unknown (a : appliance) : bool := match a_type a with Some t => String.eqb t "unknown" | None => false end.

(** appliance.py:72-88, [Appliance.label]; comparing [None] with 1 raises
    TypeError. *)
Definition appliance_label (pretty : bool) (a : appliance) : res string :=
  do label <- (if pretty then
      let label := capitalize (str_opt (fun s => s) (a_type a)) in
      match a_instance a with
      | None => Err TypeError
      | Some n => Ok (if (1 <? n)%Z then (label ++ " " ++ str_int n)%string else label)
      end
    else Ok (str_id a));
  Ok (if is_unknown a then (label ++ ", original name = " ++ str_opt (fun s => s) (a_original a))%string else label).

Record meter := mkMeter { m_name : option string; m_site : bool; m_appliances : list appliance }.

(** elecmeter.py:174-191, [dominant_appliance]. *)
Definition dominant_appliance (m : meter) : option appliance :=
  match m_appliances m with
  | [] => None
  | [a] => Some a
  | a :: _ => match find a_dominant (m_appliances m) with Some b => Some b | None => Some a end
  end.

(** elecmeter.py:216-220 and 234-238. *)
Definition appliance_names (m : meter) : res (list string) :=
  mapM (fun a => do s <- appliance_label false a; Ok (if a_dominant a then upper s else s)) (m_appliances m).

(** elecmeter.py:224-243, [_pretty_label]. *)
Definition pretty_label (m : meter) : res string :=
  match m_name m with
  | Some (String c r) => capitalise_first_letter (Some (String c r))
  | _ => if m_site m then capitalise_first_letter (Some "Site meter"%string)
         else match dominant_appliance m with
              | Some a => capitalise_first_letter (a_type a)
              | None => do l <- appliance_names m; Ok (join ", " l)
              end
  end.
(** elecmeter.py:193-222, [ElecMeter.label]. *)
Definition meter_label (pretty : bool) (m : meter) : res string :=
  if pretty then pretty_label m
  else if m_site m then Ok (join ", " ["SITE METER"%string])
  else match m_name m with
       | Some s => Ok (join ", " [s])
       | None => do l <- appliance_names m; Ok (join ", " l)
       end.

Inductive item := Meter (m : meter) | Group (name : option string) (items : list item).

(** [set(l)], before its order is chosen. *)
Fixpoint distinct (l : list string) : list string :=
  match l with
  | [] => []
  | x :: r => if existsb (String.eqb x) r then distinct r else x :: distinct r
  end.

Section Groups.
  Variable order : list string -> list string.

  (** metergroup.py:1661-1672, [MeterGroup.label]; [pretty] is the argument
      given, if any: a meter takes [True] without one, a group [None]. *)
  Fixpoint item_label (pretty : option bool) (i : item) : res string :=
    match i with
    | Meter m => meter_label (match pretty with Some p => p | None => true end) m
    | Group (Some (String c r)) _ =>
        if match pretty with Some p => p | None => false end
        then capitalise_first_letter (Some (String c r)) else Ok (String c r)
    | Group _ items =>
        do l <- mapM (fun x => x) (map (item_label pretty) items);
        Ok (join ", " (order (distinct l)))
    end.

  (** metergroup.py:524-537, [get_labels]; [lookup] is [self[meter_id]]. *)
  Definition get_labels {K} (lookup : K -> res item) (pretty : bool) (ids : list K) : res (list string) :=
    do meters <- mapM lookup ids;
    mapM (item_label (Some pretty)) meters.
End Groups.
