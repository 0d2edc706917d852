(** Vocabulary for loads that may share objects. *)
From Verif Require Import Base PrepModel.
Import List. Open Scope Z_scope.

Section S.
Context {C : Type}.
Variables (user : nat -> C -> C) (resample : Z -> Z -> C -> C) (series : C -> C).

(** The program begins with lists of nodes [ls], [n] nodes (node [k] does [user k]) and
    dictionaries of options [ds] (with or without a limit). *)
Definition initial (ls : list (list nat)) (n : nat) (ds : list (option Z)) : state C :=
  mkState ls ds (map (fun k => (None, User k)) (seq 0 n)) [] [].

(** The smallest number of periods [p] that makes up [m]. *)
Definition is_ceil (l m p : Z) : Prop := l * p >= m /\ (l - 1) * p < m.

(** Resampling as the caller says, else if a period is given; the period is the one given,
    else that of the meter. *)
Definition wants (a : args C) : bool :=
  match a_resample a with Some b => b | None => match a_period a with Some _ => true | None => false end end.
Definition own_period (a : args C) : Z := match a_period a with Some p => p | None => a_default a end.

(** What a load asks for: the nodes [ns] of its list, in order, and resampling with its
    own period, and with the limit of its own options, or else the one of its meter. *)
Definition own_nodes (ls : list (list nat)) (a : args C) (ns : list nat) : Prop :=
  match a_prep a with Some l => nth_error ls l = Some ns | None => ns = [] end.
Definition own_limit (ds : list (option Z)) (a : args C) (l : Z) : Prop :=
  match a_opts a with
  | Some d => match nth_error ds d with Some (Some v) => l = v | Some None => is_ceil l (a_max a) (own_period a) | None => False end
  | None => is_ceil l (a_max a) (own_period a)
  end.
Definition asked (a : args C) (ns : list nat) (l : Z) (c : C) : C :=
  let c' := fold_left (fun c k => user k c) ns c in
  if wants a then resample (own_period a) l c' else c'.

(** The answers to the calls of [next] on generator [g]. *)
Fixpoint answers_of (g : nat) (ops : list (op C)) (xs : list (answer C)) : list (answer C) :=
  match ops, xs with
  | Pull g' :: r, x :: xs => if Nat.eqb g' g then x :: answers_of g r xs else answers_of g r xs
  | _ :: r, _ :: xs => answers_of g r xs
  | _, _ => []
  end.

(** A generator of [cs]: its chunks one after the other, then StopIteration. *)
Definition yields (cs : list C) (xs : list (answer C)) : Prop :=
  xs = firstn (length xs) (map Got cs ++ repeat (Raised StopIteration) (length xs)).

Definition op_args (o : op C) : option (args C) := match o with Load a | Series a => Some a | Pull _ => None end.

(** The caller's objects: a call can only name lists and dictionaries of the program. *)
Definition names (ls : list (list nat)) (ds : list (option Z)) (a : args C) : Prop :=
  (forall l, a_prep a = Some l -> (l < length ls)%nat) /\ (forall d, a_opts a = Some d -> (d < length ds)%nat).
Definition valid_program (ls : list (list nat)) (n : nat) (ds : list (option Z)) (ops : list (op C)) : Prop :=
  Forall (Forall (fun k => (k < n)%nat)) ls /\ Forall (fun o => forall a, op_args o = Some a -> names ls ds a) ops.

(** Two lists have no node in common. *)
Definition disjoint (ns ms : list nat) : Prop := forall k, In k ns -> In k ms -> False.

(** [b] does not use the list of [a], nor any of its nodes. *)
Definition apart (ls : list (list nat)) (a b : args C) : Prop :=
  forall l l' ns ms, a_prep a = Some l -> a_prep b = Some l' -> nth_error ls l = Some ns -> nth_error ls l' = Some ms -> l <> l' /\ disjoint ns ms.
(** [b] does not use the dictionary of [a], if that has no limit yet and both resample. *)
Definition opts_apart (ds : list (option Z)) (a b : args C) : Prop :=
  forall d, a_opts a = Some d -> wants a = true -> nth_error ds d = Some None -> a_opts b = Some d -> wants b = false.
End S.
