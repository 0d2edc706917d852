(** Model of comparing the submeters of two groups one by one:
    nilmtk/metergroup.py:1727-1763 (replace_dataset,
    iterate_through_submeters_of_two_metergroups) and the loop that the
    metrics of nilmtk/metrics.py share (error_in_assigned_energy 62-73,
    mean_normalized_error_power 136-150, rms_error_power 171-187, f1_score
    212-249).  Identifiers, groups and lookups are those of ItemModel. *)
From Verif Require Import Base ItemModel.
Open Scope Z_scope.

(** metergroup.py:1727-1745, [replace_dataset].  [identifier.meters] of the
    identifier of a group is a list of identifiers. *)
Fixpoint with_dataset (d : obj) (x : obj) : res obj :=
  let fix all (l : list obj) : res (list obj) :=
    match l with
    | [] => Ok []
    | y :: l' => do z <- with_dataset d y; do r <- all l'; Ok (z :: r)
    end in
  match x with
  | GroupID l => do l' <- all l; Ok (GroupID l')
  | MeterID i b _ => Ok (MeterID i b d)
  | _ => Err TypeError
  end.

Section Pairs.
Context {app : Type}.
Variable matches : app -> list (nat * obj) -> res bool.
Variable order : list app -> list app.
(* what simplest_type_for (utils.py:146-153) gives for several data sets: a
   tuple of them, in the order of a set *)
Variable several : list (node app) -> list obj.

(** metergroup.py:832-836, [submeters().meters].  (The constructor of the new
    group keeps the list.) *)
Definition submeters (ms : list (node app)) : list (node app) := filter (fun x => negb (is_site x)) ms.

(** metergroup.py:569-572, [dataset()]: None ([Thing 0]) for a group without
    meters. *)
Definition dataset_of (ms : list (node app)) : obj :=
  match dataset (Grp ms) with
  | OnePlace d => d
  | NoPlace => Thing 0
  | Many => Tup (several ms)
  end.

(** metergroup.py:1748-1763. *)
Definition pair_up (slave : list (node app)) (x : node app) : res (node app * found app) :=
  do id <- with_dataset (dataset_of slave) (ident x);
  do y <- getitem matches order slave id;
  Ok (x, y).
Definition pairs (master slave : list (node app)) : res (list (node app * found app)) :=
  mapM (pair_up slave) (submeters master).

(** The loop of the metrics: [scores[pred_meter.instance()] = score], where
    [score] stands for the body of the loop, and the dictionary that is turned
    into a Series.  Keys are compared with [==]. *)
Fixpoint assign {V} (k : obj) (v : V) (d : list (obj * V)) : list (obj * V) :=
  match d with
  | [] => [(k, v)]
  | (k', v') :: r => if py_eq k k' then (k', v) :: r else (k', v') :: assign k v r
  end.
Definition metric {V} (score : node app * found app -> res V) (predictions truth : list (node app)) : res (list (obj * V)) :=
  do ps <- pairs predictions truth;
  foldM (fun d p => do v <- score p; Ok (assign (instance (fst p)) v d)) ps [].
End Pairs.
