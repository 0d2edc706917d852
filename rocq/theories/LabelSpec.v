(** Vocabulary for labels. *)
From Coq Require Import String Ascii Permutation.
From Verif Require Import Base LabelModel.
Import List. Open Scope list_scope. Open Scope nat_scope.

(** What identifies an appliance. *)
Definition identifier (a : appliance) : option string * option Z := (a_type a, a_instance a).

(** Names of types as in the NILM metadata: lower-case letters, digits, spaces
    and hyphens. *)
Definition plain_char (c : ascii) : Prop :=
  let n := nat_of_ascii c in 97 <= n <= 122 \/ 48 <= n <= 57 \/ n = 32 \/ n = 45.
Fixpoint plain (s : string) : Prop :=
  match s with EmptyString => True | String c r => plain_char c /\ plain r end.
(** An appliance of a known type and with an instance. *)
Definition complete (a : appliance) (t : string) (n : Z) : Prop :=
  a_type a = Some t /\ a_instance a = Some n /\ plain t /\ t <> "unknown"%string.

(** [t] does not end with a space and a number. *)
Definition unnumbered (t : string) : Prop := forall p n, t <> (p ++ " " ++ str_int n)%string.

(** A meter labelled by its appliances. *)
Definition by_appliances (m : meter) : Prop := m_name m = None /\ m_site m = false.

(** [l] separated by commas. *)
Fixpoint listed (l : list string) : string :=
  match l with
  | [] => ""
  | x :: r => (x ++ match r with [] => "" | _ => ", " ++ listed r end)%string
  end.

(** The first letter of [s] as a capital. *)
Definition capital (s s' : string) : Prop :=
  exists c c' r, s = String c r /\ s' = String c' r /\
    let n := nat_of_ascii c in
    (97 <= n <= 122 /\ nat_of_ascii c' + 32 = n \/ ~ (97 <= n <= 122) /\ c' = c).

(** The order of a set: any. *)
Definition arbitrary (order : list string -> list string) : Prop := forall l, Permutation (order l) l.
