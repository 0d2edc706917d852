(** Model of the tables and summaries that a MeterGroup makes of its meters:
    [sample_period] (nilmtk/metergroup.py:574-576), [call_method_on_all_meters]
    (1003-1020), [pairwise] (1022-1048), [pairwise_correlation] (1062-1071),
    [available_ac_types] and [available_physical_quantities] (1099-1123),
    [proportion_of_upstream_total_per_meter] (1218-1228) and [sort_meters] (1657-1659). *)
From Coq Require Import Reals.
From Verif Require Import Base PipelineModel ColumnsModel TopModel CorrModel.
Import List. Open Scope nat_scope.

Section Tables.
(** [M] are the members of the group (meters or groups), [I] their identifiers, [V] the
    values of a statistic (which may include NaN).  The identifiers are tuples;
    DataFrame and Series use them as labels of an ordinary index. *)
Context {M I V : Type} (I_dec : forall x y : I, {x = y} + {x <> y}) (ident : M -> I).

(** A Series, and a DataFrame as the list of its columns.  [None] is the NaN of a
    cell that nothing has been assigned to. *)
Definition series := list (I * option V).
Definition frame := list (I * series).

(** [l[i]] *)
Fixpoint item {A} (l : list (I * A)) (i : I) : res A :=
  match l with [] => Err KeyError | (k, x) :: r => if I_dec k i then Ok x else item r i end.
(** [l[i] = x]: a label that is not there is added. *)
Fixpoint assign {A} (l : list (I * A)) (i : I) (x : A) : list (I * A) :=
  match l with [] => [(i, x)] | (k, y) :: r => if I_dec k i then (k, x) :: r else (k, y) :: assign r i x end.

(** [pd.Series(index=ids)] and [pd.DataFrame(index=ids, columns=ids)]. *)
Definition blank_series (ids : list I) : series := map (fun i => (i, None)) ids.
Definition blank (ids : list I) : frame := map (fun i => (i, blank_series ids)) ids.

(** [fr[i][j]], and [fr[i][j] = v], which writes through to the column.  The identifiers in a
    group are taken to be distinct: with two columns of one name [fr[i]] would be a table. *)
Definition get_cell (fr : frame) (i j : I) : res (option V) := do c <- item fr i; item c j.
Definition set_cell (fr : frame) (i j : I) (v : option V) : res frame := do c <- item fr i; Ok (assign fr i (assign c j v)).

(** metergroup.py:1015-1020; [method] is [getattr(meter, method)()], and its value is
    taken to be a single number (or similar), not a Series. *)
Definition call_on_all (method : M -> res V) (ms : list M) : res series :=
  foldM (fun s m => do v <- method m; Ok (assign s (ident m) (Some v))) ms (blank_series (map ident ms)).

(** metergroup.py:1038-1048. *)
Definition enum (ms : list M) : list (nat * M) := combine (seq 0 (length ms)) ms.
Definition pair_step (method : M -> M -> res V) (i : nat) (m_i : M) (fr : frame) (jm : nat * M) : res frame :=
  let '(j, m_j) := jm in
  if j <? i then do v <- get_cell fr (ident m_j) (ident m_i); set_cell fr (ident m_i) (ident m_j) v
  else do v <- method m_i m_j; set_cell fr (ident m_i) (ident m_j) (Some v).
Definition pairwise (method : M -> M -> res V) (ms : list M) : res frame :=
  foldM (fun fr im => foldM (pair_step method (fst im) (snd im)) (enum ms) fr) (enum ms) (blank (map ident ms)).
End Tables.

(** metergroup.py:1071 with electric.py:326-327: both meters are loaded at the longer of
    their two sample periods.  [load m p] are the chunks of [m.power_series(sample_period=p)]. *)
Definition correlate {M} (period : M -> Z) (load : M -> Z -> list chunk) (a b : M) : res corr_result :=
  let p := Z.max (period a) (period b) in Ok (correlation (load a p) (load b p)).
Definition pairwise_correlation {M I} (I_dec : forall x y : I, {x = y} + {x <> y}) (ident : M -> I)
    (period : M -> Z) (load : M -> Z -> list chunk) (ms : list M) : res (frame (I:=I) (V:=corr_result)) :=
  pairwise I_dec ident (correlate period load) ms.

(** electric.py:207-219: [upstream] is [upstream_meter()] (None for a site meter; see
    WiringModel), [share m u] the ratio of the energies of [m] and [u] (see ShareModel). *)
Definition proportion_of_upstream {M} (upstream : M -> res (option M)) (share : M -> M -> res num) (m : M) : res num :=
  do u <- upstream m; match u with None => Err AttributeError | Some u => share m u end.
(** metergroup.py:1218-1228; [sort] is sort_values(ascending=False).  Printing is left
    out. *)
Definition upstream_per_meter {M I} (I_dec : forall x y : I, {x = y} + {x <> y}) (ident : M -> I) (sort : list (I * option num) -> list (I * option num))
    (upstream : M -> res (option M)) (share : M -> M -> res num) (ms : list M) : res (list (I * option num)) :=
  do s <- call_on_all I_dec ident (proportion_of_upstream upstream share) ms; Ok (sort s).

(** A group with the groups in it; [A] is what is known of a meter. *)
Inductive tree (A : Type) := Leaf (x : A) | Group (l : list (tree A)).
Arguments Leaf {A}. Arguments Group {A}.

(** [max] of a list; None (for a meter whose device is not known) cannot be
    compared. *)
Definition py_max (l : list (option Z)) : res (option Z) :=
  match l with
  | [] => Err ValueError
  | x :: r => foldM (fun a b => match a, b with Some x, Some y => Ok (Some (Z.max x y)) | _, _ => Err TypeError end) r x
  end.
(** metergroup.py:574-576; for the meters see DeviceModel. *)
Fixpoint sample_period (t : tree (option Z)) : res (option Z) :=
  match t with Leaf p => Ok p | Group l => do ps <- mapM (fun r => r) (map sample_period l); py_max ps end.

(** elecmeter.py:256-267 for a list of physical quantities; [order] is [list(set(l))]. *)
Definition meter_ac_types (order : list acname -> list acname) (ms : list measurement) (arg : pq_arg) : res (list acname) :=
  match arg with
  | PqNone => Err ValueError
  | PqName p => available_ac_types ms p
  | PqList ps => do ts <- mapM (available_ac_types ms) ps; Ok (order (concat ts))
  end.
(** metergroup.py:1099-1113. *)
Fixpoint group_ac_types (order : list acname -> list acname) (arg : pq_arg) (t : tree (list measurement)) : res (list acname) :=
  match t with
  | Leaf ms => meter_ac_types order ms arg
  | Group l => do ts <- mapM (fun r => r) (map (group_ac_types order arg) l); Ok (order (concat ts))
  end.
(** metergroup.py:1115-1123. *)
Fixpoint group_quantities (order : list pq -> list pq) (t : tree (list measurement)) : list pq :=
  match t with
  | Leaf ms => order (map fst ms)
  | Group l => order (concat (map (group_quantities order) l))
  end.

(** What [instance()] returns: an int for a meter, a tuple for a group (here of meters
    only). *)
Inductive inst := IMeter (n : Z) | IGroup (l : list Z).
Fixpoint lex_lt (l l' : list Z) : bool :=
  match l, l' with
  | _, [] => false
  | [], _ :: _ => true
  | x :: r, y :: r' => if Z.eqb x y then lex_lt r r' else Z.ltb x y
  end.
Definition inst_lt (x y : inst) : res bool :=
  match x, y with
  | IMeter a, IMeter b => Ok (Z.ltb a b)
  | IGroup a, IGroup b => Ok (lex_lt a b)
  | _, _ => Err TypeError
  end.
(** metergroup.py:1657-1659, 1866: list.sort with the instance as the key; a stable
    sort, here by insertion.  (When it raises, Python leaves the list in some order.) *)
Section Sort.
Context {M : Type} (instance : M -> inst).
Fixpoint insert (x : M) (l : list M) : res (list M) :=
  match l with
  | [] => Ok [x]
  | y :: r => do lt <- inst_lt (instance y) (instance x); if lt then do r' <- insert x r; Ok (y :: r') else Ok (x :: l)
  end.
Fixpoint sort_meters (l : list M) : res (list M) :=
  match l with [] => Ok [] | x :: r => do r' <- sort_meters r; insert x r' end.
End Sort.
