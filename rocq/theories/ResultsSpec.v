(** Vocabulary for the properties of Results tables. *)
From Verif Require Import Base TimeFrameModel TimeFrameSpec SortLib ResultsModel.
From Coq Require Import QArith Sorted Permutation.
Open Scope Z_scope.

(** The instants a stored row is about: [start, end), [None] = unbounded. *)
Definition row_covers {A} (r : row A) (i : Z) : Prop :=
  (forall s, r_start r = Some s -> s <= i) /\ (forall e, r_end r = Some e -> i < e).

Definition row_ordered {A} (r : row A) : Prop :=
  forall s e, r_start r = Some s -> r_end r = Some e -> s < e.

(** No instant is covered by two different rows. *)
Definition rows_disjoint {A} (data : table A) : Prop :=
  forall j k r q i, nth_error data j = Some r -> nth_error data k = Some q ->
    row_covers r i -> row_covers q i -> j = k.

(** Earlier start first; an unbounded start (NaT) goes last. *)
Definition start_before {A} (r q : row A) : Prop :=
  match r_start r, r_start q with
  | Some x, Some y => x <= y
  | _, None => True
  | None, Some _ => False
  end.
Definition sorted_by_start {A} (data : table A) : Prop := StronglySorted start_before data.

(** A frame one may append: not empty, ends in order. *)
Definition usable (t : tf) : Prop := tf_empty t = false /\ ordered t.

Definition row_of {A} (p : tf * A) : row A :=
  mkRow (tf_start (fst p)) (tf_end (fst p)) (snd p).

(** Histories of calls on one Results object. *)
Inductive op (A : Type) :=
  | OpAppend (t : tf) (v : A)
  | OpUpdate (new : table A).
Arguments OpAppend {A} t v.
Arguments OpUpdate {A} new.

(** One call: the object afterwards, and the exception raised if any. *)
Definition call {A} (data : table A) (o : op A) : table A * option exn :=
  match o with
  | OpAppend t v => match results_append data t v with
                    | Ok d => (d, None)
                    | Err e => (data, Some e)
                    end
  | OpUpdate new => results_update data new
  end.

(** Rows a call asks to store. *)
Definition op_rows {A} (o : op A) : list (row A) :=
  match o with OpAppend t v => [row_of (t, v)] | OpUpdate new => new end.

Fixpoint run {A} (data : table A) (h : list (op A)) : table A :=
  match h with [] => data | o :: r => run (fst (call data o)) r end.

(** Rows of the calls that returned normally. *)
Fixpoint accepted {A} (data : table A) (h : list (op A)) : list (row A) :=
  match h with
  | [] => []
  | o :: r =>
      (match snd (call data o) with None => op_rows o | Some _ => [] end)
        ++ accepted (fst (call data o)) r
  end.

(** No [update] in the history raised. *)
Fixpoint no_failed_update {A} (data : table A) (h : list (op A)) : Prop :=
  match h with
  | [] => True
  | o :: r =>
      match o with OpUpdate _ => snd (call data o) = None | OpAppend _ _ => True end
      /\ no_failed_update (fst (call data o)) r
  end.

Definition appends_usable {A} (h : list (op A)) : Prop :=
  forall t v, In (OpAppend t v) h -> usable t.

(** Append a list of results one after the other. *)
Definition append_all {A} (l : list (tf * A)) (data : table A) : res (table A) :=
  foldM (fun d p => results_append d (fst p) (snd p)) l data.

(** [q] answers for the same period as [r]. *)
Definition same_period {A B} (r : row A) (q : row B) : Prop :=
  r_start q = r_start r /\ r_end q = r_end r /\ r_end r <> None.

(** Index values occur once. *)
Definition unique_index {A} (data : table A) : Prop := NoDup (map r_start data).

(** Gaps and repetitions of a sample index. *)
Definition perfectly_sampled (index : list Z) (period : Z) : Prop :=
  forall k x y, nth_error index k = Some x -> nth_error index (S k) = Some y -> y = x + period.

Definition period {A} (r : row A) : option Z * option Z := (r_start r, r_end r).

(** Tables about the same periods: same starts and ends, each start once, no
    open end. *)
Definition same_periods {A} (P : list (option Z * option Z)) (data : table A) : Prop :=
  map period data = P.
Definition proper_periods (P : list (option Z * option Z)) : Prop :=
  NoDup (map fst P) /\ Forall (fun p => snd p <> None) P.

Definition is_some {A} (o : option A) : bool := match o with Some _ => true | None => false end.

(** The table has exactly these AC types, filled in on every row. *)
Definition uniform (a r p : bool) (data : table energies) : Prop :=
  Forall (fun x => is_some (en_active (r_val x)) = a /\ is_some (en_reactive (r_val x)) = r /\
                   is_some (en_apparent (r_val x)) = p) data.

(** Cell [k] of a column, 0 if absent. *)
Definition cell (f : energies -> option Z) (data : table energies) (k : nat) : Z :=
  match nth_error data k with
  | Some x => match f (r_val x) with Some v => v | None => 0 end
  | None => 0
  end.

(** Unify the first meter's results with all the others, metergroup.py:866-870. *)
Definition unify_all (l : list (table energies)) (first : table energies) : res (table energies) :=
  foldM energy_unify l first.
Definition dropout_unify_all (l : list (table dropout)) (first : table dropout) : res (table dropout) :=
  foldM dropout_unify l first.

Definition rate_at (data : table dropout) (k : nat) : option Q :=
  match nth_error data k with Some x => d_rate (r_val x) | None => None end.

(** Arithmetic mean. *)
Definition mean (l : list Q) : Q := (fold_right Qplus 0 l / inject_Z (Z.of_nat (length l)))%Q.

(** [m] is a nearest integer to n/d (d > 0). *)
Definition nearest (m n d : Z) : Prop := 2 * Z.abs (n - d * m) <= d.

(** Weighted sum with weights 1, 2, 4, ...: meter k of the rest counts 2^(k-1). *)
Fixpoint doubling (w : Z) (l : list Q) : Q :=
  match l with [] => 0%Q | x :: r => (inject_Z w * x + doubling (2 * w) r)%Q end.

(** Mean of (value, weight) pairs. *)
Definition weighted_mean (ps : list (Q * Z)) : Q :=
  (fold_right Qplus 0 (map (fun p => fst p * inject_Z (snd p)) ps)
   / inject_Z (sumZ (map snd ps)))%Q.
