(** Model of nilmtk/datastore/key.py and of [join_key]
    (nilmtk/datastore/datastore.py).

    Strings are lists of ASCII characters.  Python's [int(str)] is an argument
    [py_int] ([None]: ValueError); the theorems only assume that it reads back
    decimal numerals. *)
From Verif Require Import Base.
From Coq Require Import Ascii String DecimalString DecimalN.
Import List.
Open Scope list_scope.
Open Scope nat_scope.

Definition str := list ascii.
Definition lit (s : string) : str := list_ascii_of_string s.
Definition slash : ascii := "/"%char.

(** [s.lstrip('/')], [s.strip('/')] *)
Fixpoint lstrip (s : str) : str :=
  match s with
  | c :: r => if Ascii.eqb c slash then lstrip r else s
  | [] => []
  end.
Definition strip (s : str) : str := rev (lstrip (rev (lstrip s))).

(** [s.split('/')]: never empty. *)
Fixpoint split_path (s : str) : list str :=
  match s with
  | [] => [[]]
  | c :: r => if Ascii.eqb c slash then [] :: split_path r
              else match split_path r with
                   | first :: rest => (c :: first) :: rest
                   | [] => [[c]]
                   end
  end.

(** [s.startswith(p)] *)
Fixpoint startswith (p s : str) : bool :=
  match p, s with
  | [], _ => true
  | a :: p, b :: s => Ascii.eqb a b && startswith p s
  | _ :: _, [] => false
  end.

(** [s.replace(p, "")] for a non-empty [p]: every occurrence is removed, from
    left to right; [skip] is the number of characters of the current occurrence
    still to be skipped. *)
Fixpoint remove_from (skip : nat) (p s : str) : str :=
  match s with
  | [] => []
  | c :: r => match skip with
              | S k => remove_from k p r
              | O => if startswith p s then remove_from (length p - 1) p r else c :: remove_from 0 p r
              end
  end.
Definition remove_all (p s : str) : str := remove_from 0 p s.

(** [str(n)] for a non-negative number. *)
Definition decimal (n : Z) : str := lit (NilEmpty.string_of_uint (N.to_uint (Z.to_N n))).

Record key := mkKey { k_building : Z; k_meter : option Z; k_utility : option str }.

(** key.py:41-46, [_check]. *)
Definition check (k : key) : res key :=
  if (k_building k <? 1)%Z then Err AssertionError
  else match k_meter k with
       | Some m => if (m <? 1)%Z then Err AssertionError else Ok k
       | None => Ok k
       end.

(** key.py:23-25 and 40: a key from numbers; building [None] fails the check. *)
Definition key_of_numbers (building meter : option Z) : res key :=
  match building with
  | None => Err AssertionError
  | Some b => check (mkKey b meter None)
  end.

(** key.py:26-40: a key from a string. *)
Definition key_of_string (py_int : str -> option Z) (s : str) : res key :=
  let parts := split_path (strip s) in
  let first := hd [] parts in
  if negb (startswith (lit "building") first) then Err AssertionError
  else match py_int (remove_all (lit "building") first) with
       | None => Err ValueError
       | Some b =>
           let utility := match parts with _ :: u :: _ => Some u | _ => None end in
           do meter <- match parts with
                       | [_; _; m] => if negb (startswith (lit "meter") m) then Err AssertionError
                                      else match py_int (remove_all (lit "meter") m) with
                                           | None => Err ValueError
                                           | Some n => Ok (Some n)
                                           end
                       | _ => Ok None
                       end;
           check (mkKey b meter utility)
       end.

(** key.py:48-53, [__repr__]. *)
Definition key_repr (k : key) : res str :=
  do k <- check k;
  Ok (lit "/building" ++ decimal (k_building k) ++
      match k_meter k with Some m => lit "/elec/meter" ++ decimal m | None => [] end).

(** datastore.py:190-210, [join_key]; the arguments are the [str(arg)]. *)
Definition join_step (key arg : str) : str :=
  match strip arg with
  | [] => key
  | a => key ++ a ++ [slash]
  end.
Definition join_key (args : list str) : str :=
  let key := fold_left join_step args [slash] in
  if Nat.ltb 1 (length key) then removelast key else key.
