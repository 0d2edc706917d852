(** Model of the display of metadata (nilmtk/utils.py:217-247, print_dict, with which the metadata of data sets,
    buildings and appliances are shown in a notebook).

    Characters are those of Latin-1.  What '{}'.format gives for a value that is no string is part of the
    value.  The handler of UnicodeEncodeError is left out: str.format raises none. *)
From Coq Require Import Ascii String.
From Verif Require Import Base.
Import List.
Open Scope list_scope.
Open Scope nat_scope.

Definition text := list ascii.
Definition lit (s : string) : text := list_ascii_of_string s.

(** An item of a list: a string, or anything else with its format. *)
Inductive item := IStr (s : text) | IOther (s : text).
(** A value of the metadata. *)
Inductive value := VItem (i : item) | VList (l : list item) | VDict (d : list (text * value)).

(** The character class \s. *)
Definition blank (c : ascii) : bool :=
  let n := nat_of_ascii c in
  ((9 <=? n) && (n <=? 13)) || ((28 <=? n) && (n <=? 32)) || (n =? 133) || (n =? 160).
(** [^\s\)] *)
Definition url_char (c : ascii) : bool := negb (blank c) && negb (Ascii.eqb c ")").

Fixpoint starts (p s : text) : bool :=
  match p, s with
  | [], _ => true
  | a :: p, b :: s => Ascii.eqb a b && starts p s
  | _, _ => false
  end.
(** 'http' in value *)
Fixpoint contains (p s : text) : bool :=
  starts p s || match s with [] => false | _ :: s => contains p s end.

(** The longest run of url characters, and the rest. *)
Fixpoint run (s : text) : text * text :=
  match s with
  | c :: s' => if url_char c then (let (u, r) := run s' in (c :: u, r)) else ([], s)
  | [] => ([], [])
  end.
(** A match of (http[^\s\)]+) at the start. *)
Definition match_url (s : text) : option (text * text) :=
  if starts (lit "http") s then
    match run (skipn 4 s) with ([], _) => None | (u, r) => Some (lit "http" ++ u, r) end
  else None.
Definition anchor (u : text) : text := lit "<a href=""" ++ u ++ lit """>" ++ u ++ lit "</a>".
(** re.sub: from left to right, without overlaps; [skip] characters are still part of the last match. *)
Fixpoint sub_urls (skip : nat) (s : text) : text :=
  match s with
  | [] => []
  | c :: s' =>
      match skip with
      | S k => sub_urls k s'
      | 0 => match match_url s with
             | Some (u, _) => anchor u ++ sub_urls (pred (length u)) s'
             | None => c :: sub_urls 0 s'
             end
      end
  end.

(** utils.py:218-226. *)
Definition format_string (i : item) : text :=
  match i with
  | IStr s => if contains (lit "http") s then sub_urls 0 s else s
  | IOther s => s
  end.

(** utils.py:228-242. *)
Fixpoint value_html (v : value) : text :=
  match v with
  | VList l => lit "<ul>" ++ flat_map (fun i => lit "<li>" ++ format_string i ++ lit "</li>") l ++ lit "</ul>"
  | VDict d =>
      lit "<ul>" ++
      flat_map (fun kv => lit "<li><strong>" ++ fst kv ++ lit "</strong>: " ++ value_html (snd kv) ++ lit "</li>") d ++
      lit "</ul>"
  | VItem i => format_string i
  end.
Definition dict_to_html (d : list (text * value)) : text := value_html (VDict d).
