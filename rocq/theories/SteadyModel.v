(** Model of steady-state detection
    (nilmtk/feature_detectors/steady_states.py:5-198).

    A row is a time and its powers (one or two columns); powers are rationals
    (float rounding and NaN are not modelled; [find_steady_states_transients]
    drops rows with NaN first). *)
From Verif Require Import Base.
From Coq Require Import QArith Qabs.
Open Scope nat_scope.

Definition vec := list Q.
Definition row := (Z * vec)%type.

(** Elementwise numpy operations on arrays of the same shape. *)
Fixpoint map2 (f : Q -> Q -> Q) (a b : vec) : vec :=
  match a, b with
  | x :: a, y :: b => f x y :: map2 f a b
  | _, _ => []
  end.
Definition vsub := map2 Qminus.
(** [np.sum(v > level)] as a truth value. *)
Definition any_above (level : Q) (v : vec) : bool := existsb (fun x => negb (Qle_bool x level)) v.
Definition vabs (v : vec) : vec := map Qabs v.

(** The local variables of the loop (steady_states.py:56-70). *)
Record st := mkSt {
  s_est : vec; s_last : vec; s_prev : vec; s_ongoing : bool; s_n : nat; s_time : Z;
  s_trans : list (Z * vec); s_steady : list (Z * vec) }.

(** steady_states.py:54-70: initial values. *)
Definition init (cols : nat) (t0 : Z) : st :=
  mkSt (repeat 0%Q cols) (repeat 0%Q cols) (repeat 0%Q cols) false 0 t0 [] [].

(** steady_states.py:106-121: a transition and a steady state are recorded if
    the transition is above the noise level. *)
Definition record_edge (noise : Q) (s : st) : st :=
  let last_transition := vsub (s_est s) (s_last s) in
  if any_above noise (vabs last_transition) then
    mkSt (s_est s) (s_last s) (s_prev s) (s_ongoing s) (s_n s) (s_time s)
      (s_trans s ++ [(s_time s, last_transition)]) (s_steady s ++ [(s_time s, s_est s)])
  else s.

(** steady_states.py:77-147: one row. *)
Definition step (threshold noise : Q) (s : st) (r : row) : st :=
  let this := firstn 2 (snd r) in
  let change := any_above threshold (vabs (vsub this (s_prev s))) in
  let s := if change && negb (s_ongoing s) then
             let s' := record_edge noise s in
             mkSt (s_est s') (s_est s') (s_prev s') (s_ongoing s') (s_n s') (fst r) (s_trans s') (s_steady s')
           else s in
  let n := if change then 0 else s_n s in
  let est := map2 (fun e m => (inject_Z (Z.of_nat n) * e + m) / inject_Z (Z.of_nat (n + 1)))%Q (s_est s) this in
  mkSt est (s_last s) this change (n + 1) (s_time s) (s_trans s) (s_steady s).

(** steady_states.py:36-198, [find_steady_states].  More than two columns make
    [np.subtract] raise; the two results are (steady states, transitions). *)
Definition find_steady_states (cols : nat) (rows : list row) (threshold noise : Q) : res (list (Z * vec) * list (Z * vec)) :=
  match rows with
  | [] => Err IndexError
  | r0 :: _ =>
      if 2 <? cols then Err ValueError
      else
        let s := record_edge noise (fold_left (step threshold noise) rows (init cols (fst r0))) in
        match s_steady s, s_trans s with
        | (t1, power) :: steady', (t2, _) :: trans' =>
            if any_above noise power && ((t2 =? t1) && (t1 =? fst r0))%Z then Ok (steady', trans')
            else Ok (s_steady s, s_trans s)
        | _, _ => Err IndexError
        end
  end.

(** steady_states.py:5-33, [find_steady_states_transients]: chunk by chunk.
    Rows with NaN are [None] here; [pd.concat] of nothing raises. *)
Fixpoint per_chunk (cols : nat) (chunks : list (list (option row))) (threshold noise : Q) : res (list (list (Z * vec) * list (Z * vec))) :=
  match chunks with
  | [] => Ok []
  | c :: cs =>
      match flat_map (fun r => match r with Some r => [r] | None => [] end) c with
      | [] => per_chunk cols cs threshold noise
      | rows => do x <- find_steady_states cols rows threshold noise; do xs <- per_chunk cols cs threshold noise; Ok (x :: xs)
      end
  end.
Definition find_steady_states_transients (cols : nat) (chunks : list (list (option row))) (threshold noise : Q) : res (list (Z * vec) * list (Z * vec)) :=
  do l <- per_chunk cols chunks threshold noise;
  match l with
  | [] => Err ValueError
  | _ => Ok (flat_map fst l, flat_map snd l)
  end.
