(** Model of MeterGroup.dataframe_of_meters (nilmtk/metergroup.py:945-991).

    A chunk of a meter is the list of its rows after [sum(axis=1)]: the time and
    the number (a sum of NaNs is 0, so there is no NaN).  Times do not repeat
    within a chunk (with repeated times pandas raises or pairs rows by position;
    left out).  The arguments of [load] and exceptions of the generators
    are left out. *)
From Coq Require Import QArith.
From Verif Require Import Base.
Open Scope nat_scope.

Notation chunk := (list (Z * Q)).
Notation meter := (nat * list chunk)%type.   (* identifier, chunks its generator yields *)

(** metergroup.py:966-982: one round of the outer loop: [next] of each
    generator; an exhausted generator and an empty chunk are skipped. *)
Definition round_of (ms : list meter) : list (nat * chunk) :=
  flat_map (fun m => match snd m with
                     | [] => []
                     | [] :: _ => []
                     | c :: _ => [(fst m, c)]
                     end) ms.
Definition advance (ms : list meter) : list meter := map (fun m => (fst m, tl (snd m))) ms.

(** metergroup.py:965-987, [while True]: stops at the first round without a chunk.
    After [n] = the greatest number of chunks all generators are exhausted. *)
Fixpoint rounds (n : nat) (ms : list meter) : list (list (nat * chunk)) :=
  match n with
  | 0 => []
  | S n' => match round_of ms with
            | [] => []
            | r => r :: rounds n' (advance ms)
            end
  end.
Definition n_rounds (ms : list meter) : nat := fold_right Nat.max 0 (map (fun m => length (snd m)) ms).

(** metergroup.py:984-985, [pd.concat(chunks, axis=1)]: an outer join.  [union]
    gives the times of the result, in an order that depends on the version of
    pandas.  A cell is [None] (NaN) if the meter has no row at that time. *)
Fixpoint value_at (t : Z) (c : chunk) : option Q :=
  match c with [] => None | (u, v) :: r => if Z.eqb t u then Some v else value_at t r end.
Notation cells := (list (nat * option Q)).
Notation table := (list nat * list (Z * cells))%type.   (* columns; rows *)
Definition join (union : list (list Z) -> list Z) (cs : list (nat * chunk)) : table :=
  (map fst cs,
   map (fun t => (t, map (fun c => (fst c, value_at t (snd c))) cs)) (union (map (fun c => map fst (snd c)) cs))).

(** metergroup.py:989-991, [pd.concat(segments)]: the rows one after the other, the
    columns in order of first appearance, NaN where a segment lacks a column. *)
Fixpoint cell (i : nat) (r : cells) : option Q :=
  match r with [] => None | (j, v) :: r' => if Nat.eqb i j then v else cell i r' end.
Fixpoint add_new (l seen : list nat) : list nat :=
  match l with
  | [] => seen
  | x :: r => if existsb (Nat.eqb x) seen then add_new r seen else add_new r (seen ++ [x])
  end.
Definition stack (segments : list table) : table :=
  let columns := fold_left (fun seen s => add_new (fst s) seen) segments [] in
  (columns, flat_map (fun s => map (fun row => (fst row, map (fun i => (i, cell i (snd row))) columns)) (snd s)) segments).

Definition dataframe_of_meters (union : list (list Z) -> list Z) (ms : list meter) : table :=
  match rounds (n_rounds ms) ms with
  | [] => (map fst ms, [])
  | rs => stack (map (join union) rs)
  end.
