(** Vocabulary for histories of operations on a store. *)
From Coq Require Import Ascii String.
From Verif Require Import Base TimeFrameModel StoreModel StoreSpec KeyModel KeySpec ConvModel ConvSpec RemoveModel.
Import List.
Open Scope list_scope.
Open Scope nat_scope.

Section Spec.
Context {A : Type}.

(** Two spellings of one key; a key at or above another one. *)
Definition same_key (k k' : str) : Prop := key_parts k = key_parts k'.
Definition covers (k k' : str) : Prop := exists r, key_parts k' = key_parts k ++ r.
Definition is_root (k : str) : Prop := key_parts k = [].

(** The operation erases what is stored at [k]: a table is put at [k] or
    above, or [k] or something above it is removed. *)
Definition erases (e : event A) (k : str) : Prop :=
  match e with
  | Put q rows => rows <> [] /\ covers q k
  | Remove q => ~ is_root q /\ covers q k
  | _ => False
  end.

(** [rows] are the rows that the operations append at [k], in order. *)
Inductive appended (k : str) : list (event A) -> list (sample A) -> Prop :=
  | appended_none : appended k [] []
  | appended_here : forall q rows h l, same_key q k -> appended k h l -> appended k (Append q rows :: h) (rows ++ l)
  | appended_other : forall e h l, (forall q rows, e = Append q rows -> ~ same_key q k) -> appended k h l -> appended k (e :: h) l.

(** A table with further rows. *)
Definition extend (old : option (list (sample A))) (rows : list (sample A)) : option (list (sample A)) :=
  match old, rows with
  | None, [] => None
  | None, _ => Some rows
  | Some o, _ => Some (o ++ rows)
  end.

(** The operation writes metadata at [k]. *)
Definition saves (e : event A) (k : str) : Prop :=
  match e with Save q _ => same_key q k | _ => False end.

(** Something is stored at [k] or below it, or a group is there. *)
Definition present (root : node A) (k : str) : Prop := get_node root k <> None.

(** The operation makes the groups on the way to its key. *)
Definition makes (e : event A) (k : str) : Prop :=
  match e with
  | Append q rows | Put q rows => rows <> [] /\ covers k q
  | _ => False
  end.
(** The operation leaves nothing at [k]. *)
Definition destroys (e : event A) (k : str) : Prop :=
  match e with
  | Put q rows => rows <> [] /\ covers q k /\ ~ same_key q k
  | Remove q => ~ is_root q /\ covers q k
  | _ => False
  end.

Definition event_key (e : event A) : str :=
  match e with Append k _ | Put k _ | Remove k | Save k _ => k end.
Definition apart (e e' : event A) : Prop :=
  ~ covers (event_key e) (event_key e') /\ ~ covers (event_key e') (event_key e).

(** *** CSV stores: files and directories *)
Definition below (d p : str) : Prop := exists rest, p = d ++ "/"%char :: rest.

(** The operation leaves no file [p], or a new one. *)
Definition csv_erases (py_int : str -> option Z) (e : event A) (p : str) : Prop :=
  match e with
  | Put q _ => key_to_path py_int q = Ok p
  | Remove q => exists d, key_to_path py_int q = Ok d
      (* the path is that of the file or, possibly ending in slashes, of a directory above it, or the root *)
      /\ (d = p \/ d = [] \/ exists d' n, d = d' ++ repeat "/"%char n /\ below d' p)
  | _ => False
  end.

Inductive csv_appended (py_int : str -> option Z) (p : str) : list (event A) -> list (line A) -> Prop :=
  | csv_appended_none : csv_appended py_int p [] []
  | csv_appended_here : forall q rows h l, key_to_path py_int q = Ok p -> csv_appended py_int p h l ->
      csv_appended py_int p (Append q rows :: h) (to_csv rows ++ l)
  | csv_appended_other : forall e h l, (forall q rows, e = Append q rows -> key_to_path py_int q <> Ok p) ->
      csv_appended py_int p h l -> csv_appended py_int p (e :: h) l.

End Spec.
