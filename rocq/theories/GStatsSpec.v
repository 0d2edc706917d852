(** Vocabulary for the properties of the statistics of groups (C54, C55, C56):
    the meters inside a group, the span of their time frames, sums over them. *)
From Coq Require Import QArith.
From Verif Require Import Base TimeFrameModel TimeFrameSpec EnergyModel TopModel GStatsModel.
Open Scope Z_scope.

(** What the meters anywhere inside the group return, in order. *)
Fixpoint meters_of (n : tnode) : list (res tf) :=
  match n with TMeter r => [r] | TGroup ms => flat_map meters_of ms end.

(** Every meter has a bounded time frame, except that a meter which is not the
    first of its group may have an empty one; no group is without meters. *)
Inductive readable : tnode -> Prop :=
  | readable_meter : forall t, is_bounded t -> readable (TMeter (Ok t))
  | readable_group : forall m ms, readable m -> Forall readable_or_empty ms -> readable (TGroup (m :: ms))
with readable_or_empty : tnode -> Prop :=
  | roe_readable : forall n, readable n -> readable_or_empty n
  | roe_empty : forall t, tf_empty t = true -> readable_or_empty (TMeter (Ok t)).

(** The first and the last instant of the bounded frames. *)
Definition earliest (l : list (res tf)) (s : Z) : Prop :=
  (exists t e, In (Ok t) l /\ bounded t s e) /\ forall t s' e', In (Ok t) l -> bounded t s' e' -> s <= s'.
Definition latest (l : list (res tf)) (e : Z) : Prop :=
  (exists t s, In (Ok t) l /\ bounded t s e) /\ forall t s' e', In (Ok t) l -> bounded t s' e' -> e' <= e.

(** The energies of the meters anywhere inside the group, in order. *)
Fixpoint energies_of (n : enode) : list series :=
  match n with EMeter s => [s] | EGroup f others => energies_of f ++ flat_map energies_of others end.
Definition records (s : series) (a : actype) : Prop := exists v, lookup a s = Some v.
Definition amount (s : series) (a : actype) (q : Q) : Prop := lookup a s = Some (Some q).

(** The dropout rates of the meters anywhere inside the group. *)
Fixpoint rates_of (n : dnode) : list (option Q) :=
  match n with DMeter r => [r] | DGroup ms => flat_map rates_of ms end.
Fixpoint no_empty_group (n : dnode) : Prop :=
  match n with
  | DMeter _ => True
  | DGroup ms => ms <> [] /\ (fix all l := match l with [] => True | m :: r => no_empty_group m /\ all r end) ms
  end.
Definition in_unit (q : Q) : Prop := (0 <= q <= 1)%Q.

(** [q] is the mean of [l]. *)
Definition mean_of (l : list Q) (q : Q) : Prop := l <> [] /\ (q * inject_Z (Z.of_nat (length l)) == qsum l)%Q.

(** [T] lists the AC types which both record. *)
Definition in_common (own other : series) (T : list actype) : Prop :=
  NoDup T /\ forall a, In a T <-> records own a /\ records other a.
Definition has_energy (s : series) : Prop := ~ (series_sum (map snd s) == 0)%Q.

(** The ratio of the two energies for one AC type. *)
Definition ratio_ok (own other : series) (a : actype) (r : Q) : Prop :=
  exists x y, amount own a x /\ amount other a y /\ ~ (y == 0)%Q /\ (r == x / y)%Q.
(** The energies of the meters for the type [a], in order. *)
Definition amounts (ms : list series) (a : actype) (xs : list Q) : Prop := Forall2 (fun m x => amount m a x) ms xs.

(** What [m.proportion_of_energy(mains)] returns: a number or NaN. *)
Definition prop_is (mains m : series) (p : option Q) : Prop :=
  match p with
  | Some q => exists q', proportion_of_energy m mains = Ok (Fin q') /\ (q' == q)%Q
  | None => proportion_of_energy m mains = Ok NaN
  end.
