(** Specification of the cache of statistics. *)
From Coq Require Import Ascii String.
From Verif Require Import Base TimeFrameModel TimeFrameSpec SortLib StoreModel StoreSpec ResultsModel ResultsSpec EnergyModel KeyModel CacheModel.
Import List.
Open Scope list_scope.
Open Scope Z_scope.

(** A section [start, end) inside the window. *)
Definition inside (window t : tf) : Prop := is_bounded t /\ half_open t /\ forall i, inTF t i -> inTF window i.
(** Sections that one may ask for: of some kind, no instant in two of them. *)
Definition proper_request (ok : tf -> Prop) (sections : list tf) : Prop := Forall ok sections /\ no_overlap sections.
(** A meter all of whose sections of that kind are delivered whole: a section [s, e) gives one result for just
    that period, always the same, or none (a section with a single sample). *)
Definition whole {A} (ok : tf -> Prop) (chunks : tf -> list (tf * A)) (stat : Z -> Z -> option A) : Prop :=
  forall t s e, ok t -> bounded t s e -> match stat s e with Some v => exists u, chunks t = [(u, v)] /\ bounded u s e | None => chunks t = [] end.
(** Two tables with the same periods and equivalent values. *)
Definition equivalent_tables {A} (same : A -> A -> Prop) (t u : table A) : Prop :=
  Forall2 (fun r q => r_start r = r_start q /\ r_end r = r_end q /\ same (r_val r) (r_val q)) t u.
Definition equivalence {A} (same : A -> A -> Prop) : Prop := (forall a, same a a) /\ (forall a b, same a b -> same b a) /\ (forall a b c, same a b -> same b c -> same a c).

(** A row with the value of its period. *)
Definition true_row {A} (stat : Z -> Z -> option A) (same : A -> A -> Prop) (r : row A) : Prop :=
  exists s e v, r_start r = Some s /\ r_end r = Some e /\ s < e /\ stat s e = Some v /\ same (r_val r) v.
(** A right answer: in order of time, one row for every section that has a value, each with its value. *)
Definition answer {A} (stat : Z -> Z -> option A) (same : A -> A -> Prop) (sections : list tf) (d : table A) : Prop :=
  sorted_by_start d /\ NoDup (map period d) /\ Forall (true_row stat same) d /\
  forall s e, In (Some s, Some e) (map period d) <-> (exists t, In t sections /\ bounded t s e) /\ stat s e <> None.
(** Storing a table of such rows keeps the periods and, up to equivalence, the values; and such a table, if it is
    not empty, has a column for every AC type of the request. *)
Definition storable {A} (sc : stat_class A) (stat : Z -> Z -> option A) (same : A -> A -> Prop) (ac : list actype) : Prop :=
  forall t, Forall (true_row stat same) t -> equivalent_tables same t (sc_export sc t) /\
    (t <> [] -> forall ks, sc_keys sc t = Some ks -> forall a, In a ac -> In a ks).

(** Energies that add the same: a missing AC type adds nothing. *)
Definition or_zero (o : option Z) : Z := match o with Some v => v | None => 0 end.
Definition same_energies (a b : energies) : Prop :=
  or_zero (en_active a) = or_zero (en_active b) /\ or_zero (en_reactive a) = or_zero (en_reactive b) /\ or_zero (en_apparent a) = or_zero (en_apparent b).

(** A number is not negative; a tuple has at least two. *)
Definition proper_instance (i : instance) : Prop := match i with One n => 0 <= n | Many l => (2 <= length l)%nat /\ Forall (fun n => 0 <= n) l end.
Definition proper_id (m : meter_id) : Prop := 0 <= id_building m /\ proper_instance (id_instance m).

(** What a history of requests for energies gets, and what each request would get with an empty cache. *)
Definition combined_answer (r : res (table energies)) : res (Z * Z * Z) := match r with Ok d => Ok (energy_combined d) | Err e => Err e end.
Definition with_cache (chunks : list actype -> tf -> list (tf * energies)) (h : list (list actype * list tf)) : list (res (Z * Z * Z)) :=
  map combined_answer (fst (serve energy_stat chunks h [])).
Definition from_scratch (chunks : list actype -> tf -> list (tf * energies)) (h : list (list actype * list tf)) : list (res (Z * Z * Z)) :=
  map (fun q => combined_answer (fst (get_stat energy_stat (chunks (fst q)) (fst q) (snd q) []))) h.
(** The sections of a history. *)
Definition requested (h : list (list actype * list tf)) : list tf := flat_map snd h.
