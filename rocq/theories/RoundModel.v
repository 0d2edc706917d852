(** Model of the arithmetic of nilmtk/stats/totalenergy.py in floating point.

    EnergyModel computes with integers.  Here every arithmetic operation of the program
    is followed by a rounding [rnd : R -> R], as IEEE arithmetic does it.

    Simplifications:
    - numbers are reals: infinities and NaN are not numbers here, and overflow is not
      modelled ([rnd] is any function; the theorems say what they need of it);
    - a missing reading is [None];
    - numpy and pandas may add the terms of a sum in any order and grouping: [order] says
      which, and the theorems hold for all of them. *)
From Coq Require Import Reals List.
From Verif Require Import Base.
Import ListNotations.
Open Scope R_scope.

(** The order in which the terms of a sum are added: [At i] is the term at position [i],
    [Plus a b] adds the results of [a] and [b]. *)
Inductive order := At (i : nat) | Plus (a b : order).

Section Arithmetic.
Variable rnd : R -> R.

Fixpoint add_up (terms : list R) (o : order) : R :=
  match o with
  | At i => nth i terms 0
  | Plus a b => rnd (add_up terms a + add_up terms b)
  end.

(** [x.sum()] of a numpy array or a column, 0 when it is empty. *)
Definition total (terms : list R) (o : order) : R :=
  match terms with [] => 0 | _ => add_up terms o end.

(** [series.dropna()], totalenergy.py:92.  Times are counted in nanoseconds, as in
    [series.index.values]. *)
Fixpoint readings (s : list (Z * option R)) : list (Z * R) :=
  match s with
  | [] => []
  | (t, Some v) :: r => (t, v) :: readings r
  | (_, None) :: r => readings r
  end.

(** utils.py:51-65, [timedelta64_to_secs] on one element: numpy turns the two integers
    into floating point numbers and divides. *)
Definition seconds (d : Z) : R := rnd (rnd (IZR d) / IZR 1000000000).

(** totalenergy.py:93-98: [np.diff], [clip(max=...)] and the products. *)
Fixpoint products (s : list (Z * R)) (max_sample_period : R) : list R :=
  match s with
  | (t, v) :: (((t', _) :: _) as r) =>
      rnd (Rmin (seconds (t' - t)) max_sample_period * v) :: products r max_sample_period
  | _ => []
  end.

(** totalenergy.py:80-100, [_energy_for_power_series]: kWh; JOULES_PER_KWH is in
    consts.py:1. *)
Definition power_energy (max_sample_period : R) (s : list (Z * option R)) (o : order) : R :=
  rnd (total (products (readings s) max_sample_period) o / IZR 3600000).

(** totalenergy.py:72-73, the energy of a chunk with a "cumulative energy" column, here
    with all readings present; IndexError on an empty chunk. *)
Definition cumulative_energy (s : list (Z * R)) : res R :=
  match s, last_opt s with
  | first :: _, Some last => Ok (rnd (snd last - snd first))
  | _, _ => Err IndexError
  end.

(** totalenergy.py:74-75, a chunk with an "energy" column; [sum] skips NaN. *)
Definition sum_energy (s : list (Z * option R)) (o : order) : R := total (map snd (readings s)) o.

(** results.py:32-39, [combined]: the energies of the chunks (totalenergy.py:25-27) are
    summed.  A chunk comes with the order of its own sum. *)
Definition meter_energy (max_sample_period : R) (chunks : list (list (Z * option R) * order)) (o : order) : R :=
  total (map (fun c => power_energy max_sample_period (fst c) (snd c)) chunks) o.
End Arithmetic.
