(** What the root mean square error of an appliance is. *)
From Coq Require Import String Ascii QArith Reals Qreals.
From Verif Require Import Base LabelModel RmseModel.
Import List. Open Scope list_scope. Open Scope nat_scope.

(** The columns of a table are as long as its index. *)
Definition table (f : frame) : Prop := Forall (fun c => length (snd c) = length (index f)) (cols f).

(** The pairs of readings at the instants of the ground truth at which both are known. *)
Fixpoint both (ix : list Z) (g : list (option Q)) (rows : list (Z * option Q)) : list (Q * Q) :=
  match ix, g with
  | t :: ix, x :: g =>
      match x, find (fun r => Z.eqb (fst r) t) rows with
      | Some x, Some (_, Some y) => [(x, y)]
      | _, _ => []
      end ++ both ix g rows
  | _, _ => []
  end.

Fixpoint sum_squares (l : list (Q * Q)) : R :=
  match l with [] => 0 | (x, y) :: r => (Q2R x - Q2R y) * (Q2R x - Q2R y) + sum_squares r end%R.
(** The root of the mean of the squared differences; NaN if there is none. *)
Definition is_rms (l : list (Q * Q)) (e : option R) : Prop :=
  match e with
  | None => l = []
  | Some r => l <> [] /\ (0 <= r /\ r * r * INR (length l) = sum_squares l)%R
  end.

(** Who an appliance is. *)
Definition identity (c : column) : (Z * Z * string) + string :=
  match c with Met m => inl (e_instance m, e_building m, e_dataset m) | Name s => inr s end.

Fixpoint mentions (c : ascii) (s : string) : Prop :=
  match s with EmptyString => False | String a r => a = c \/ mentions c r end.

(** Every column is a meter that has a label, without parenthesis; meters with one label differ in
    building or instance. *)
Definition labelled (f : frame) : Prop :=
  Forall (fun c => exists m s, fst c = Met m /\ meter_label true (e_meta m) = Ok s /\ ~ mentions "(" s) (cols f) /\
  forall i j m n g h s, i <> j -> nth_error (cols f) i = Some (Met m, g) -> nth_error (cols f) j = Some (Met n, h) ->
    meter_label true (e_meta m) = Ok s -> meter_label true (e_meta n) = Ok s -> (e_building m, e_instance m) <> (e_building n, e_instance n).
(** Another column has the label of this one. *)
Definition shared (f : frame) (i : nat) (s : string) : Prop :=
  exists j n h, j <> i /\ nth_error (cols f) j = Some (Met n, h) /\ meter_label true (e_meta n) = Ok s.
