(** Vocabulary for steady-state detection. *)
From Verif Require Import Base SteadyModel.
From Coq Require Import QArith Qabs.
Open Scope nat_scope.

(** Some component differs by more than [threshold]. *)
Definition jump (threshold : Q) (p q : vec) : Prop := exists i x y, nth_error p i = Some x /\ nth_error q i = Some y /\ (threshold < Qabs (y - x))%Q.

(** Splitting the readings into states: each state is a part in which the power
    changes (every reading jumps from the one before it) followed by a part in
    which it does not.  [p] is the reading before. *)
Fixpoint all_jump (threshold : Q) (p : vec) (l : list row) : Prop :=
  match l with [] => True | r :: l => jump threshold p (snd r) /\ all_jump threshold (snd r) l end.
Fixpoint all_steady (threshold : Q) (p : vec) (l : list row) : Prop :=
  match l with [] => True | r :: l => ~ jump threshold p (snd r) /\ all_steady threshold (snd r) l end.
Definition end_of (p : vec) (l : list row) : vec := match last_opt l with Some r => snd r | None => p end.

Record state := mkState { changing : list row; settled : list row }.
Definition readings (s : state) : list row := changing s ++ settled s.
Definition state_ok (threshold : Q) (p : vec) (s : state) : Prop :=
  all_jump threshold p (changing s) /\ all_steady threshold (end_of p (changing s)) (settled s).

(** The states of a series: only the first may begin without a change, only the
    last may end while changing. *)
Fixpoint states_ok (threshold : Q) (p : vec) (l : list state) : Prop :=
  match l with
  | [] => True
  | s :: l' => state_ok threshold p s /\ (l' <> [] -> settled s <> []) /\ Forall (fun s => changing s <> []) l' /\
               states_ok threshold (end_of p (readings s)) l'
  end.
Definition splits (threshold : Q) (cols : nat) (rows : list row) (l : list state) : Prop :=
  flat_map readings l = rows /\ Forall (fun s => readings s <> []) l /\ states_ok threshold (repeat 0%Q cols) l.

(** The readings that make up the level of a state: the last changing one (where
    the new level is reached) and the settled ones. *)
Definition level_readings (s : state) : list row :=
  match last_opt (changing s) with Some r => r :: settled s | None => settled s end.
Definition start_of (s : state) : Z := match readings s with r :: _ => fst r | [] => 0%Z end.

(** [level] is the mean, in each column. *)
Definition column (i : nat) (l : list row) : list Q := map (fun r => nth i (snd r) 0%Q) l.
Definition sumQ (l : list Q) : Q := fold_right Qplus 0%Q l.
Definition mean_level (cols : nat) (l : list row) (level : vec) : Prop :=
  length level = cols /\ forall i x, nth_error level i = Some x -> (inject_Z (Z.of_nat (length l)) * x == sumQ (column i l))%Q.

(** Changes of level from state to state: (start, change, level). *)
Fixpoint changes (before : vec) (l : list (Z * vec)) : list (Z * vec * vec) :=
  match l with
  | [] => []
  | (t, level) :: l => (t, vsub level before, level) :: changes level l
  end.
Definition exceeds (noise : Q) (v : vec) : Prop := exists i x, nth_error v i = Some x /\ (noise < x)%Q.
Definition exceeds_abs (noise : Q) (v : vec) : Prop := exists i x, nth_error v i = Some x /\ (noise < Qabs x)%Q.

(** [out] are the members of [l] that satisfy [P], in order. *)
Inductive selected {A} (P : A -> Prop) : list A -> list A -> Prop :=
  | sel_nil : selected P [] []
  | sel_yes x l out : P x -> selected P l out -> selected P (x :: l) (x :: out)
  | sel_no x l out : ~ P x -> selected P l out -> selected P (x :: l) out.

(** The rows of a chunk without missing values, and the chunks that have any. *)
Definition complete (chunk : list (option row)) : list row := flat_map (fun r => match r with Some r => [r] | None => [] end) chunk.
Definition usable (chunks : list (list (option row))) : list (list row) :=
  filter (fun rows => negb (match rows with [] => true | _ => false end)) (map complete chunks).
