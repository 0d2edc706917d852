(** Model of the energy accounting of a MeterGroup: energy_per_meter,
    fraction_per_meter, select_top_k (nilmtk/metergroup.py:1125-1216, 1306-1353,
    403-443) and most_common (nilmtk/utils.py:360-367).

    A meter is its identifier (a number; meters with an instance of 0 or a tuple
    and nested groups are left out) and its energy for each AC type, [None] for NaN.
    Energies are exact rationals. *)
From Verif Require Import Base.
From Coq Require Import QArith.
Open Scope Q_scope.

Record emeter := mkEmeter { e_id : nat; e_energies : list (option Q) }.

(** A pandas float: NaN, a number, or an infinity (its sign). *)
Inductive num := NaN | Fin (q : Q) | Inf (neg : bool).

Definition valid_of (l : list (option Q)) : list Q := flat_map (fun x => match x with Some q => [q] | None => [] end) l.
Definition qsum (l : list Q) : Q := fold_right Qplus 0 l.
Definition qmax (x y : Q) : Q := if Qle_bool x y then y else x.

(** DataFrame.max() and .sum(): NaNs are skipped; the maximum of nothing is NaN. *)
Definition series_max (l : list (option Q)) : option Q :=
  match valid_of l with [] => None | x :: r => Some (fold_left qmax r x) end.
Definition series_sum (l : list (option Q)) : Q := qsum (valid_of l).

(** A division of floats in pandas. *)
Definition divide (x : option Q) (d : Q) : num :=
  match x with
  | None => NaN
  | Some q => if Qeq_bool d 0 then (if Qeq_bool q 0 then NaN else Inf (negb (Qle_bool 0 q))) else Fin (q / d)
  end.

(** metergroup.py:1125-1178 without mains: the table of energies, one column
    per meter; :1208-1216, [fraction_per_meter]. *)
Definition meter_energy (m : emeter) : option Q := series_max (e_energies m).
Definition total_energy (ms : list emeter) : Q := series_sum (map meter_energy ms).
Definition fraction_per_meter (ms : list emeter) : list (nat * num) :=
  map (fun m => (e_id m, divide (meter_energy m) (total_energy ms))) ms.

(** Python slices l[:k] and l[k:]. *)
Definition cut (k : Z) (n : nat) : nat := if (k <? 0)%Z then Z.to_nat (Z.of_nat n + k) else Z.to_nat k.
Definition slice_to {A} (k : Z) (l : list A) : list A := firstn (cut k (length l)) l.
Definition slice_from {A} (k : Z) (l : list A) : list A := skipn (cut k (length l)) l.

(** metergroup.py:226-229: the first meter with the identifier. *)
Fixpoint get_meter (ms : list emeter) (i : nat) : res emeter :=
  match ms with
  | [] => Err KeyError
  | m :: r => if Nat.eqb (e_id m) i then Ok m else get_meter r i
  end.
(** metergroup.py:403-443 for plain identifiers: repeated ones are skipped. *)
Fixpoint from_list_onto (ms : list emeter) (done : list nat) (ids : list nat) : res (list emeter) :=
  match ids with
  | [] => Ok []
  | i :: r =>
      if existsb (Nat.eqb i) done then from_list_onto ms done r
      else do m <- get_meter ms i; do l <- from_list_onto ms (i :: done) r; Ok (m :: l)
  end.
Definition from_list (ms : list emeter) (ids : list nat) : res (list emeter) := from_list_onto ms [] ids.

(** metergroup.py:1306-1353 by energy: the selected meters and, with
    group_remainder, those of the nested group 'others'.  [sort] is sort_values
    (which is not stable: any order of equal values). *)
Definition select_top_k (sort : bool -> list (nat * num) -> list (nat * num)) (ms : list emeter) (k : Z) (asc remainder : bool) : res (list emeter * option (list emeter)) :=
  let series := sort asc (fraction_per_meter ms) in
  do top <- from_list ms (map fst (slice_to k series));
  if remainder then do rest <- from_list ms (map fst (slice_from k series)); Ok (top, Some rest)
  else Ok (top, None).

(** utils.py:360-367, [most_common]: Series.sort() was removed from pandas in version
    0.20; [has_sort] says whether it is there.  The value returned is one of the items of the list (which
    one is left to [pick]). *)
Definition most_common (has_sort : bool) (pick : list nat -> nat) (l : list nat) : res nat :=
  if has_sort then (match l with [] => Err IndexError | _ => Ok (pick l) end) else Err AttributeError.

(** metergroup.py:1180-1206.  [ac_types] is bound to the keys of the table, i.e. to
    the identifiers of the meters, so what [most_common] returns is an identifier and
    never an AC type: the mains are always asked for 'best'.  [mains] is
    the total energy of the mains for ac_type='best': a table of AC types, of which
    the first is taken.  The result: energy per meter and the remainder, before
    sorting. *)
Definition energy_with_remainder (has_sort : bool) (pick : list nat -> nat) (ms : list emeter) (mains : list (option Q)) : res (list (nat * Q) * option Q) :=
  let sums := map (fun m => (e_id m, series_sum (e_energies m))) ms in
  do _common <- most_common has_sort pick (map e_id ms);
  match mains with
  | [] => Err IndexError
  | None :: _ => Ok (sums, None)
  | Some q :: _ => Ok (sums, Some (q - qsum (map snd sums)))
  end.
