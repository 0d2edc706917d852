(** Vocabulary for splitting a GREEND file (C109). *)
From Coq Require Import String Ascii.
From Verif Require Import Base HtmlModel GreendModel.
Import List. Open Scope list_scope. Open Scope nat_scope.

(** [s] has the text [p] in it. *)
Definition has (p s : list ascii) : Prop := exists a b, s = a ++ p ++ b.
(** A line announces columns if it has "time" in it; the header is what begins there. *)
Definition heading (line : list ascii) : option (list ascii) :=
  if contains (lit "time") (no_nulls line) then Some (from_time (no_nulls line)) else None.
(** The readings of a file, each with the last header before it (without blanks around it). *)
Fixpoint readings (header : list ascii) (lines : list (list ascii)) : list (list ascii * list ascii) :=
  match lines with
  | [] => []
  | l :: r => match heading l with Some h => readings (strip h) r | None => (header, no_nulls l) :: readings header r end
  end.
(** A block: a header and lines; its text, its readings. *)
Definition block : Type := list ascii * list (list ascii).
Definition block_text (b : block) : list ascii := fst b ++ concat (snd b).
Definition block_readings (b : block) : list (list ascii * list ascii) := map (pair (strip (fst b))) (snd b).
(** Each block begins with "time" and has another header than the one before it. *)
Fixpoint new_headers (previous : option (list ascii)) (bs : list block) : Prop :=
  match bs with
  | [] => True
  | b :: r => starts (lit "time") (fst b) = true /\ previous <> Some (strip (fst b)) /\ new_headers (Some (strip (fst b))) r
  end.
(** [m] is [s] without the characters [c] at its ends. *)
Definition trimmed (c : ascii -> bool) (s m : list ascii) : Prop :=
  exists a b, s = a ++ m ++ b /\ Forall (fun x => c x = true) (a ++ b) /\
    (forall x r, m = x :: r -> c x = false) /\ (forall x r, m = r ++ [x] -> c x = false).
