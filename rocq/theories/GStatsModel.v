(** Model of the statistics of a whole MeterGroup: get_timeframe, total_energy,
    dropout_rate and good_sections (nilmtk/metergroup.py:842-943, 1375-1390), and of
    proportion_of_energy (nilmtk/electric.py:267-309) and
    proportion_of_energy_submetered (metergroup.py:1073-1097).

    Energies and rates are exact rationals, [None] is NaN.  A pandas Series of
    energies is a list of pairs (AC type, energy) without a repeated AC type. *)
From Coq Require Import QArith.
From Verif Require Import Base TimeFrameModel EnergyModel TopModel.
Open Scope Z_scope.

(** A meter gives what [ElecMeter.get_timeframe] (elecmeter.py:92-94) returns or
    raises; a group holds meters and groups. *)
Inductive tnode := TMeter (r : res tf) | TGroup (ms : list tnode).

(** metergroup.py:1382-1390: one step of the loop, given what
    [meter.get_timeframe()] returns ([Ok None] is Python's None, the result of a
    group without meters).  The second call of [get_timeframe] gives the same
    as the first. *)
Definition timeframe_step (timeframe : option tf) (r : res (option tf)) : res (option tf) :=
  match timeframe with
  | None => r
  | Some t =>
      do o <- r;
      match o with
      | None => Err AttributeError
      | Some t' => if tf_empty t' then Ok (Some t) else do u <- tf_union t t'; Ok (Some u)
      end
  end.
Fixpoint get_timeframe (n : tnode) : res (option tf) :=
  match n with
  | TMeter r => do t <- r; Ok (Some t)
  | TGroup ms =>
      (fix loop timeframe ms := match ms with
       | [] => Ok timeframe
       | m :: r => do t <- timeframe_step timeframe (get_timeframe m); loop t r
       end) None ms
  end.

(** pandas [Series.__iadd__]: the sum aligned on the union of the two indexes,
    NaN where one of the two has no entry, then [reindex_like(self)]. *)
Definition series := list (actype * option Q).
Fixpoint lookup (a : actype) (s : series) : option (option Q) :=
  match s with [] => None | (b, v) :: r => if ac_eqb a b then Some v else lookup a r end.
Definition add_nan (x y : option Q) : option Q :=
  match x, y with Some p, Some q => Some (p + q)%Q | _, _ => None end.
Definition iadd (self other : series) : series :=
  map (fun kv => (fst kv, match lookup (fst kv) other with Some w => add_nan (snd kv) w | None => None end)) self.

(** metergroup.py:842-873, [total_energy] without full results.  A node is a meter
    with its energies (TotalEnergyResults.simple, totalenergyresults.py:39-40) or a
    group of at least one meter or group; a group without meters gives Python's
    None and is left out. *)
Inductive enode := EMeter (s : series) | EGroup (first : enode) (others : list enode).
Fixpoint group_energy (n : enode) : series :=
  match n with
  | EMeter s => s
  | EGroup first others => fold_left iadd (map group_energy others) (group_energy first)
  end.

(** metergroup.py:893-917, [dropout_rate] without full results: numpy's mean (NaN
    for an empty list). *)
Inductive dnode := DMeter (rate : option Q) | DGroup (ms : list dnode).
Fixpoint all_some {A} (l : list (option A)) : option (list A) :=
  match l with
  | [] => Some []
  | None :: _ => None
  | Some x :: r => match all_some r with Some y => Some (x :: y) | None => None end
  end.
Definition np_mean (l : list (option Q)) : option Q :=
  match all_some l with
  | None | Some [] => None
  | Some l' => Some (qsum l' / inject_Z (Z.of_nat (length l')))%Q
  end.
Fixpoint dropout_rate (n : dnode) : option Q :=
  match n with
  | DMeter r => r
  | DGroup ms => np_mean (map dropout_rate ms)
  end.

(** measurement.py:29-64, [select_best_ac_type] with one argument; AC_TYPES is
    active, apparent, reactive. *)
Definition best_type (s : series) : res actype :=
  match find (fun a => match lookup a s with Some _ => true | None => false end) [Active; Apparent; Reactive] with
  | Some a => Ok a
  | None => Err KeyError
  end.

(** A division of energies, NaN if one of the two is NaN. *)
Definition ratio (x y : option Q) : num := match y with Some d => divide x d | None => NaN end.

(** [Series.mean()]: NaNs are skipped, the mean of nothing is NaN; infinities of
    both signs give NaN. *)
Definition finite (l : list num) : list Q := flat_map (fun x => match x with Fin q => [q] | _ => [] end) l.
Definition has_inf (neg : bool) (l : list num) : bool :=
  existsb (fun x => match x with Inf b => Bool.eqb b neg | _ => false end) l.
Definition series_mean (l : list num) : num :=
  match has_inf false l, has_inf true l with
  | true, true => NaN
  | true, false => Inf false
  | false, true => Inf true
  | false, false =>
      match finite l with
      | [] => NaN
      | f => Fin (qsum f / inject_Z (Z.of_nat (length f)))
      end
  end.

(** electric.py:288-309, [proportion_of_energy], given the two results of
    [total_energy] ([Series.sum()] skips NaNs).  The order of the shared AC types,
    a Python set, does not matter to the mean. *)
Definition shared_types (own other : series) : list actype :=
  filter (fun a => match lookup a own, lookup a other with Some _, Some _ => true | _, _ => false end) [Active; Apparent; Reactive].
Definition energy_at (a : actype) (s : series) : res (option Q) :=
  match lookup a s with Some v => Ok v | None => Err KeyError end.
Definition ratio_at (own other : series) (a b : actype) : res num :=
  do x <- energy_at a own;
  do y <- energy_at b other;
  Ok (ratio x y).
Definition proportion_of_energy (own other : series) : res num :=
  if Qeq_bool (series_sum (map snd other)) 0 then Ok NaN
  else match own with
  | [] => Ok (Fin 0)
  | _ =>
      match shared_types own other with
      | [] => do a <- best_type own; do b <- best_type other; ratio_at own other a b
      | [a] => ratio_at own other a a
      | l => do rs <- mapM (fun a => ratio_at own other a a) l; Ok (series_mean rs)
      end
  end.

(** metergroup.py:1080-1097, [proportion_of_energy_submetered], given the energies of
    the meters directly downstream of the mains and those of the mains. *)
Definition add_num (x y : num) : num :=
  match x, y with
  | Fin p, Fin q => Fin (p + q)
  | Inf a, Inf b => if Bool.eqb a b then Inf a else NaN
  | Inf a, Fin _ | Fin _, Inf a => Inf a
  | _, _ => NaN
  end.
Definition submetered_step (mains : series) (acc : num * bool) (m : series) : res (num * bool) :=
  do p <- proportion_of_energy m mains;
  match p with
  | NaN => Ok acc
  | _ => Ok (add_num (fst acc) p, false)
  end.
Definition proportion_submetered (downstream : list series) (mains : series) : res num :=
  do acc <- foldM (submetered_step mains) downstream (Fin 0, true);
  Ok (if snd acc then NaN else fst acc).
