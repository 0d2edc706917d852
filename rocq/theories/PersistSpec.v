(** Vocabulary for saved models. *)
From Coq Require Import QArith.
From Verif Require Import Base NearestModel PersistModel.
Import List. Open Scope list_scope. Open Scope Z_scope.

(** A character of Unicode, and a name. *)
Definition character (c : Z) : Prop := 0 <= c <= 1114111 /\ ~ (55296 <= c <= 57343).
Definition name (t : text) : Prop := Forall character t.
(** A model that training can make: different names. *)
Definition proper (m : model) : Prop := NoDup (map fst m) /\ Forall name (map fst m).
(** A call of [partial_fit] with some frame for each of its appliances. *)
Definition valid_call (c : call) : Prop := Forall (fun a => name (fst a) /\ snd a <> []) c.

(** Processes one after the other: the first one starts from nothing, each later one from
    the model that is on the disk; all save to the same folder. *)
Definition session (folder : text) (load : option text) (cs : list call) (fs : disk) : res (mean * disk) :=
  do o <- new_mean (Some folder) load fs;
  match fit_calls o cs fs with (o, fs, None) => Ok (o, fs) | (_, _, Some e) => Err e end.
Fixpoint later (folder : text) (ss : list (list call)) (o : mean) (fs : disk) : res (mean * disk) :=
  match ss with
  | [] => Ok (o, fs)
  | cs :: r => do x <- session folder (Some folder) cs fs; later folder r (fst x) (snd x)
  end.
Definition sessions (folder : text) (first : list call) (ss : list (list call)) (fs : disk) : res (mean * disk) :=
  do x <- session folder None first fs; later folder ss (fst x) (snd x).
(** The same calls in one process that saves nothing. *)
Definition in_one (cs : list call) : mean := fst (fst (fit_calls (mkMean [] None None) cs [])).
