(** What a page shows (C107). *)
From Coq Require Import Ascii String.
From Verif Require Import Base HtmlModel.
Import List.
Open Scope list_scope.
Open Scope nat_scope.

(** A document: characters, and elements with name, attributes and content. *)
Inductive dom := DChar (c : ascii) | DElem (name attributes : text) (content : list dom).

(** Reading a page: what is between < and > is a tag. *)
Inductive token := TChar (c : ascii) | TTag (t : text).
Fixpoint tokens (tag : option text) (s : text) : list token :=
  match s, tag with
  | [], _ => []
  | c :: s, None => if Ascii.eqb c "<" then tokens (Some []) s else TChar c :: tokens None s
  | c :: s, Some t => if Ascii.eqb c ">" then TTag t :: tokens None s else tokens (Some (t ++ [c])) s
  end.
Fixpoint name_of (t : text) : text * text :=
  match t with
  | [] => ([], [])
  | c :: t => if Ascii.eqb c " " then ([], t) else (let (n, a) := name_of t in (c :: n, a))
  end.
(** The elements that are open, innermost first, each with what precedes it in the element around it. *)
Fixpoint build (ts : list token) (opened : list (text * text * list dom)) (now : list dom) : option (list dom) :=
  match ts with
  | [] => match opened with [] => Some now | _ => None end
  | TChar c :: ts => build ts opened (now ++ [DChar c])
  | TTag (c :: t) :: ts =>
      if Ascii.eqb c "/" then
        match opened with
        | (n, a, before) :: opened => if list_eq_dec ascii_dec n t then build ts opened (before ++ [DElem n a now]) else None
        | [] => None
        end
      else build ts ((fst (name_of (c :: t)), snd (name_of (c :: t)), now) :: opened) []
  | TTag [] :: ts => None
  end.
(** What the page is read as; None if the tags are not nested. *)
Definition browser (page : text) : option (list dom) := build (tokens None page) [] [].

(** The visible text. *)
Fixpoint visible (d : dom) : text := match d with DChar c => [c] | DElem _ _ l => flat_map visible l end.
(** The links: attributes and visible text. *)
Fixpoint links (d : dom) : list (text * text) :=
  match d with
  | DChar _ => []
  | DElem n a l => (if list_eq_dec ascii_dec n (lit "a") then [(a, flat_map visible l)] else []) ++ flat_map links l
  end.

(** A URL starts with http and has at least one more character; a blank or a bracket ends it. *)
Definition in_url (c : ascii) : Prop := ~ (9 <= nat_of_ascii c <= 13 \/ 28 <= nat_of_ascii c <= 32 \/ nat_of_ascii c = 133 \/ nat_of_ascii c = 160) /\ c <> ")"%char.
Definition url (u : text) : Prop := exists v, u = lit "http" ++ v /\ v <> [] /\ Forall in_url v.
Definition ended (rest : text) : Prop := match rest with [] => True | c :: _ => ~ in_url c end.
(** The pieces of a text: URLs, as long as possible, and single characters where no URL starts. *)
Inductive cut : text -> list (bool * text) -> Prop :=
| cut_nil : cut [] []
| cut_url u rest ps : url u -> ended rest -> cut rest ps -> cut (u ++ rest) ((true, u) :: ps)
| cut_char c rest ps : ~ (exists u r, url u /\ c :: rest = u ++ r) -> cut rest ps -> cut (c :: rest) ((false, [c]) :: ps).

Definition chars (s : text) : list dom := map DChar s.
Definition piece (p : bool * text) : list dom :=
  if fst p then [DElem (lit "a") (lit "href=""" ++ snd p ++ lit """") (chars (snd p))] else chars (snd p).
Definition bullet (l : list dom) : dom := DElem (lit "li") [] l.
Definition bullets (l : list dom) : dom := DElem (lit "ul") [] l.
Definition entry (k : text) (l : list dom) : dom := bullet (DElem (lit "strong") [] (chars k) :: chars (lit ": ") ++ l).

(** How an item, and a value, is to be displayed. *)
Inductive item_shown : item -> list dom -> Prop :=
| shown_str s ps : cut s ps -> item_shown (IStr s) (flat_map piece ps)
| shown_other s : item_shown (IOther s) (chars s).
Inductive shown : value -> list dom -> Prop :=
| shown_item i l : item_shown i l -> shown (VItem i) l
| shown_list l ds : Forall2 item_shown l ds -> shown (VList l) [bullets (map bullet ds)]
| shown_dict d ds : Forall2 (fun kv x => shown (snd kv) x) d ds ->
    shown (VDict d) [bullets (map (fun q => entry (fst (fst q)) (snd q)) (List.combine d ds))].

(** No characters with a meaning in HTML. *)
Definition plain_text (s : text) : Prop := Forall (fun c => c <> "<"%char /\ c <> ">"%char /\ c <> """"%char /\ c <> "&"%char) s.
Definition item_text (i : item) : text := match i with IStr s => s | IOther s => s end.
Inductive plain : value -> Prop :=
| plain_item i : plain_text (item_text i) -> plain (VItem i)
| plain_list l : Forall (fun i => plain_text (item_text i)) l -> plain (VList l)
| plain_dict d : Forall (fun kv => plain_text (fst kv) /\ plain (snd kv)) d -> plain (VDict d).
