(** Vocabulary for keys and paths. *)
From Verif Require Import Base KeyModel.
From Coq Require Import Ascii String.
Import List.
Open Scope list_scope.

(** [py_int] reads back what [str] of a positive number prints. *)
Definition reads_numerals (py_int : str -> option Z) : Prop := forall n, (1 <= n)%Z -> py_int (decimal n) = Some n.

(** Building number at least 1, and meter number at least 1 if there is one. *)
Definition valid (k : key) : Prop := (1 <= k_building k)%Z /\ forall m, k_meter k = Some m -> (1 <= m)%Z.

(** A path component: not empty, no slash. *)
Definition component (c : str) : Prop := c <> [] /\ ~ In slash c.

(** The string [s] is made of the components [l], in this order, separated by
    one or more slashes and possibly surrounded by slashes. *)
Inductive path : str -> list str -> Prop :=
  | path_empty : path [] []
  | path_slash s l : path s l -> path (slash :: s) l
  | path_last c : component c -> path c [c]
  | path_cons c s l : component c -> path s l -> path (c ++ slash :: s) (c :: l).

(** The canonical absolute path with these components. *)
Definition absolute (l : list str) : str :=
  match l with [] => [slash] | _ => concat (map (fun c => slash :: c) l) end.

(** Like [path], but with single slashes between components. *)
Fixpoint separated (l : list str) : str :=
  match l with
  | [] => []
  | [c] => c
  | c :: r => c ++ slash :: separated r
  end.
Definition tidy (s : str) (l : list str) : Prop :=
  Forall component l /\ exists i j, s = repeat slash i ++ separated l ++ repeat slash j.
