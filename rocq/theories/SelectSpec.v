(** Vocabulary for the selection of Dataport's buildings. *)
From Coq Require Import Ascii String DecimalString Decimal Permutation Sorted.
From Verif Require Import Base DataportModel DataportSpec SelectModel.
Import List. Open Scope list_scope. Open Scope Z_scope.

(** A building is converted if it is metered as a whole, and 97% or more of its readings
    are there. *)
Definition eligible (l : line) : Prop :=
  (l_avail l = Some "97%" \/ l_avail l = Some "98%" \/ l_avail l = Some "99%" \/ l_avail l = Some "100%")%string /\
  l_grid l = Some "yes"%string.
(** The eligible buildings of [rest] have numbers, and no two the same. *)
Definition distinct (rest : list line) : Prop :=
  forall i j l l', nth_error rest i = Some l -> nth_error rest j = Some l' -> eligible l -> eligible l' -> l_id l = l_id l' -> i = j.
Definition numbers (rest : list line) : Prop := forall l, In l rest -> eligible l -> exists b, l_id l = Some b.

(** The columns that metadata.csv must have. *)
Definition complete (header : list string) : Prop :=
  incl ["egauge_1s_data_availability"; "grid"; "dataid"; "building_type"; "city"; "state"; "house_construction_year"]%string header.

(** What a sort by "dataid" does: empty fields come last. *)
Definition id_le (a b : line) : Prop :=
  match l_id a, l_id b with Some x, Some y => x <= y | Some _, None => True | None, None => True | None, Some _ => False end.
Definition sorts (srt : list line -> list line) : Prop := forall l, Permutation l (srt l) /\ StronglySorted id_le (srt l).

(** The name of the file of building [i], and the locality of a line. *)
Definition file_name (i : nat) : string := ("building" ++ NilEmpty.string_of_uint (Nat.to_uint i) ++ ".yaml")%string.
Definition place (l : line) (p : string) : Prop :=
  exists c s, l_city l = Some c /\ l_state l = Some s /\ p = (c ++ ", " ++ s)%string.
Definition no_place (l : line) : Prop := l_city l = None \/ l_state l = None.
(** A building whose readings cannot be converted. *)
Definition no_grid (fs : nat -> file) (names : list nat) (l : line) : Prop :=
  exists b n, l_id l = Some b /\ In n names /\ unusable (fs n) b.
(** [l] has a lower number. *)
Definition lower (l l' : line) : Prop := exists b b', l_id l = Some b /\ l_id l' = Some b' /\ b < b'.
(** One such sort, for examples. *)
Definition id_leb (a b : line) : bool :=
  match l_id a, l_id b with Some x, Some y => x <=? y | Some _, None => true | None, None => true | None, Some _ => false end.
Fixpoint insert_line (x : line) (l : list line) : list line :=
  match l with [] => [x] | y :: r => if id_leb x y then x :: l else y :: insert_line x r end.
Definition sort_lines (l : list line) : list line := fold_right insert_line [] l.
