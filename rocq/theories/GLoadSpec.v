(** Specification of loading a MeterGroup. *)
From Coq Require Import QArith.
From Verif Require Import Base TopModel ColumnsModel ResampleModel FillSpec GLoadModel.
Open Scope Z_scope.

(** A DataFrame: no column twice, no time stamp twice, all columns over the same index. *)
Definition frame (c : gchunk) : Prop :=
  NoDup (map fst (g_cols c)) /\ NoDup (g_index c) /\ forall x, In x (g_cols c) -> map fst (snd x) = g_index c.
Definition frames (cs : list (option gchunk)) : Prop := forall c, In (Some c) cs -> frame c.
(** All the valid values that a meter's chunk, or all of them, have for a column at a time. *)
Definition readings_of (c : gchunk) (col : column) (t : Z) : list Q :=
  flat_map (fun x => if column_dec (fst x) col then flat_map (fun y => if fst y =? t then match snd y with Some v => [v] | None => [] end else []) (snd x) else []) (g_cols c).
Definition readings (cs : list (option gchunk)) (col : column) (t : Z) : list Q :=
  flat_map (fun oc => match oc with Some c => readings_of c col t | None => [] end) cs.
(** A cell of the result is the sum, or the mean, of values; NaN if there are none. *)
Definition is_sum (l : list Q) (cell : option Q) : Prop :=
  match cell with None => l = [] | Some v => l <> [] /\ (v == qsum l)%Q end.
Definition is_mean (l : list Q) (cell : option Q) : Prop :=
  match cell with None => l = [] | Some v => l <> [] /\ (v == qsum l / inject_Z (Z.of_nat (length l)))%Q end.
Definition same_cell (a b : option Q) : Prop := match a, b with None, None => True | Some x, Some y => (x == y)%Q | _, _ => False end.

(** Quantities that do not add up over meters. *)
Definition averaged (q : pq) : Prop := q = Voltage \/ q = Pf \/ q = Frequency \/ q = PowerFactor \/ q = PhaseAngle.
Definition quantity_in (q : pq) (cols : list column) : Prop := exists ty, In (q, ty) cols.
Definition chunk_columns (cs : list (option gchunk)) (col : column) : Prop := exists c, In (Some c) cs /\ In col (map fst (g_cols c)).
(** No NaN in a column of any chunk. *)
Definition complete (cs : list (option gchunk)) (col : column) : Prop :=
  forall c s x, In (Some c) cs -> In (col, s) (g_cols c) -> In x s -> snd x <> None.

(** The value that a meter contributes at [t] to a section from [s] to [e]: the resampled value (C51) of the
    column's rows in the section. *)
Definition contributes (midnight : Z -> Z) (p s e : Z) (m : gmeter) (col : column) (t : Z) (v : Q) : Prop :=
  exists i o t0 t1, let c := column_of i (filter (fun x => (s <=? fst x) && (fst x <? e)) (gm_rows m)) in
    nth_error (gm_cols m) i = Some col /\ spans midnight c o t0 t1 /\ (t0 < t1)%Z /\ bin_between o p t0 t1 t /\ filled c p (ffill_limit (gm_max_period m) p) t v.
Definition meter_ok (m : gmeter) : Prop := NoDup (gm_cols m) /\ gm_cols m <> [] /\ increasing (map (fun x => (fst x, None)) (gm_rows m)).
(** A meter's part in a cell: the value that it contributes, or nothing. *)
Definition contribution (midnight : Z -> Z) (p s e : Z) (m : gmeter) (col : column) (t : Z) (ov : option Q) : Prop :=
  match ov with Some v => contributes midnight p s e m col t v | None => forall v, ~ contributes midnight p s e m col t v end.
(** The same columns with equal values. *)
Definition same_frame (a b : list (column * list (option Q))) : Prop := Forall2 (fun x y => fst x = fst y /\ Forall2 same_cell (snd x) (snd y)) a b.
