(** C66: retrieving meters from a group by key. *)
From Verif Require Import Base ItemModel ItemSpec ItemProofs ItemProofs2.
Import List. Open Scope list_scope. Open Scope Z_scope.

(** For the examples: an appliance is its type and instance; REDD is string 9. *)
Definition ex_app := (nat * Z)%type.
Definition ex_matches (a : ex_app) (q : list (nat * obj)) : res bool :=
  Ok (forallb (fun p => if Nat.eqb (fst p) type_key then py_eq (Str (fst a)) (snd p) else py_eq (Int (snd a)) (snd p)) q).
Definition ex_order (l : list ex_app) : list ex_app := l.
Definition ex_m (n : Z) (s : bool) (l : list ex_app) : node ex_app := Meter (Int n) (Int 1) (Str 9) s l.
Definition ex_group : list (node ex_app) := [ex_m 1 true []; ex_m 2 false [(5%nat, 1)]; Grp [ex_m 3 false [(6%nat, 1)]; ex_m 4 false [(6%nat, 1)]]].
Notation ex_get := (getitem ex_matches ex_order).

Section Claims.
Context {app : Type}.
Variable matches : app -> list (nat * obj) -> res bool.
Variable order : list app -> list app.

(** By the identifier of a meter: the (first) meter of the group with this identifier,
    KeyError if there is none, and no other exception. *)
Theorem C66_meter_id : forall (ms : list (node app)) i b d, (forall l, i <> Tup l) -> ~ Same i (Int 0) ->
  (forall r, getitem matches order ms (MeterID i b d) = Ok r <-> exists x, r = One x /\ First (fun x => Same (ident x) (MeterID i b d)) ms x) /\
  (getitem matches order ms (MeterID i b d) = Err KeyError <-> forall x, In x ms -> ~ Same (ident x) (MeterID i b d)) /\
  (forall e, getitem matches order ms (MeterID i b d) = Err e -> e = KeyError).
Proof. exact (by_id matches order). Qed.
(** What has a meter's identifier is a meter. *)
Theorem C66_meter_id_meter : forall (x : node app) i b d, Same (ident x) (MeterID i b d) ->
  exists i' b' d' s apps, x = Meter i' b' d' s apps /\ Same i' i /\ Same b' b /\ Same d' d.
Proof. exact same_id_meter. Qed.

(** By the identifier of a group, or a list of identifiers: the nested group with exactly
    these members, in whatever order. *)
Theorem C66_group_id : forall (ms : list (node app)) l,
  (forall r, getitem matches order ms (GroupID l) = Ok r <-> exists g, r = One g /\ First (group_of_ids l) ms g) /\
  (getitem matches order ms (GroupID l) = Err KeyError <-> forall g, In g ms -> ~ group_of_ids l g) /\
  (forall e, getitem matches order ms (GroupID l) = Err e -> e = KeyError).
Proof. exact (by_ids matches order). Qed.
Theorem C66_list : forall (ms : list (node app)) l, (forall x, In x l -> is_tuple x = true) ->
  getitem matches order ms (Lst l) = getitem matches order ms (GroupID l).
Proof. exact (by_list matches order). Qed.

(** By a tuple of instances, a building and a data set. *)
Theorem C66_instances : forall (ms : list (node app)) l b d,
  (forall r, getitem matches order ms (MeterID (Tup l) b d) = Ok r <-> exists x, r = One x /\
     (First (group_of_instances l b d) ms x \/
      ((forall g, In g ms -> ~ group_of_instances l b d g) /\ First (fun x => Same (ident x) (MeterID (Tup l) b d)) ms x))) /\
  (getitem matches order ms (MeterID (Tup l) b d) = Err KeyError <-> forall x, In x ms -> ~ group_of_instances l b d x /\ ~ Same (ident x) (MeterID (Tup l) b d)) /\
  (forall e, getitem matches order ms (MeterID (Tup l) b d) = Err e -> e = KeyError).
Proof. exact (by_instances matches order). Qed.

(** Instance 0: the site meters among the members with a meter in this building and data set;
    RuntimeError if one of those reaches into another building. *)
Theorem C66_mains : forall (ms : list (node app)) i b d sel site, Same i (Int 0) ->
  Filtered (touches b d) ms sel -> Filtered has_site sel site ->
  (sel = [] -> getitem matches order ms (MeterID i b d) = Err KeyError) /\
  (sel <> [] -> ~ Forall (within_building b) sel -> getitem matches order ms (MeterID i b d) = Err RuntimeError) /\
  (sel <> [] -> Forall (within_building b) sel ->
     getitem matches order ms (MeterID i b d) = Ok (match site with [] => Nothing | [x] => One x | _ => New (map One site) end)).
Proof. exact (by_zero matches order). Qed.

(** Three items in a tuple are an identifier. *)
Theorem C66_triple : forall (ms : list (node app)) i b d, getitem matches order ms (Tup [i; b; d]) = getitem matches order ms (MeterID i b d).
Proof. intros ms i b d. destruct i; reflexivity. Qed.

(** By number, in a group whose groups contain no further groups: the only meter with
    this number, wherever it is; KeyError if there is none; an exception if there
    are several. *)
Theorem C66_number : forall (ms : list (node app)) k, Forall shallow ms -> Forall numbered (concat (map leaves ms)) ->
  getitem matches order ms (Int k) =
    match filter (has_number k) (concat (map leaves ms)) with [] => Err KeyError | [x] => Ok (One x) | _ => Err GenericException end.
Proof. exact (by_number_shallow matches order). Qed.
(** In any group: what is found is a meter, not a group, with this number; KeyError is
    raised if no meter of the group and no meter directly in one of its groups has it. *)
Theorem C66_number_sound : forall (ms : list (node app)) k,
  (forall r, getitem matches order ms (Int k) = Ok r -> exists x, r = One x /\ In x (concat (map leaves ms)) /\ mentions k x) /\
  (getitem matches order ms (Int k) = Err KeyError <-> forall x, In x ms -> ~ seen k x) /\
  (forall e, getitem matches order ms (Int k) = Err e -> e = KeyError \/ e = GenericException).
Proof. exact (by_number matches order). Qed.

(** By appliance: the only member that feeds such an appliance; KeyError if there is none,
    an exception if there are several. *)
Theorem C66_appliance : forall (ms : list (node app)) key q l, (forall l a, In a (order l) <-> In a l) -> described key = Some q ->
  (forall x a, In x ms -> attached a x -> exists b, matches a q = Ok b) -> Filtered (feeds matches q) ms l ->
  getitem matches order ms key = match l with [] => Err KeyError | [x] => Ok (One x) | _ => Err GenericException end.
Proof. exact (by_appliance matches order). Qed.
Theorem C66_appliance_errors : forall (ms : list (node app)) key q e, (forall l a, In a (order l) <-> In a l) -> described key = Some q ->
  getitem matches order ms key = Err e ->
  e = KeyError \/ e = GenericException \/ exists x a, In x ms /\ attached a x /\ matches a q = Err e.
Proof. exact (by_appliance_err matches order). Qed.

(** A pair of keys: a new group of the two things asked for. *)
Theorem C66_pair : forall (ms : list (node app)) k1 k2, (forall s, k1 <> Str s) ->
  (forall x y, getitem matches order ms (Tup [k1; k2]) = Ok (New [x; y]) <-> getitem matches order ms k1 = Ok x /\ getitem matches order ms k2 = Ok y) /\
  (forall e, getitem matches order ms (Tup [k1; k2]) = Err e <-> getitem matches order ms k1 = Err e \/ (exists x, getitem matches order ms k1 = Ok x) /\ getitem matches order ms k2 = Err e) /\
  (forall r, getitem matches order ms (Tup [k1; k2]) = Ok r -> exists x y, r = New [x; y]).
Proof. exact (by_pair matches order). Qed.

(** Keys of no documented form, and only those, are refused with TypeError. *)
Theorem C66_type_error : forall (ms : list (node app)) key, (forall l a, In a (order l) <-> In a l) -> (forall a q, matches a q <> Err TypeError) ->
  (forall k1 k2, key = Tup [k1; k2] -> exists s, k1 = Str s) ->
  getitem matches order ms key = Err TypeError <-> malformed key.
Proof. exact (type_errors matches order). Qed.

(** In bulk: a group assembled from identifiers has exactly the meters asked for. *)
Theorem C66_from_list : forall (ms : list (node app)) l f, Forall ordinary l -> from_list matches order ms l = Ok f ->
  SameSet (delivered f) (concat (map asked l)).
Proof. exact (from_list_sound matches order). Qed.
(** It can be assembled if every meter asked for is a member, and the only exception is KeyError. *)
Theorem C66_from_list_total : forall (ms : list (node app)) l, Forall ordinary l ->
  ((forall z, In z (concat (map asked l)) -> Member z (map ident ms)) -> exists f, from_list matches order ms l = Ok f) /\
  (forall e, from_list matches order ms l = Err e -> e = KeyError).
Proof. intros ms l F. split; [apply from_list_total; exact F|]. intros e. apply from_list_err. exact F. Qed.
(** Asking a group for its own identifiers gives back its members: the same objects in order. *)
Theorem C66_round_trip : forall (ms : list (node app)), Forall (fun x => ordinary (ident x)) ms ->
  (forall k1 x k2, ms = k1 ++ x :: k2 -> forall y, In y k1 -> ~ Same (ident x) (ident y) /\ forall m, x = Grp m -> ~ group_of_ids (map ident m) y) ->
  from_list matches order ms (map ident ms) = Ok (New (map One ms)).
Proof. exact (round_trip matches order). Qed.

(** An identifier that is repeated counts once. *)
Theorem C66_repeated : forall (ms : list (node app)) l x l', Member x l -> from_list matches order ms (l ++ x :: l') = from_list matches order ms (l ++ l').
Proof. exact (from_list_repeat matches order). Qed.

(** A group "with the same meters as another group" is never made: the result is
    empty, or an exception is raised, KeyError for every group of ordinary meters. *)
Theorem C66_other_group_refuted : forall (other : list (node app)) d,
  (forall g, from_other matches order other d = Ok g -> g = Grp []) /\
  (forall x l, other = x :: l -> (forall y, In y other -> numbered y /\ instance y <> Int 0) -> from_other matches order other d = Err KeyError) /\
  (forall ms, In (Grp ms) other -> exists e, from_other matches order other d = Err e).
Proof.
  intros other d. split; [apply other_empty|]. split; [intros x l ->; apply other_fails|]. intros ms I. eapply other_nested. exact I.
Qed.

(** The documented key MeterGroupID(meters=(ElecMeterID(1, 1, 'REDD'))) has no comma after the
    only item: its field is the ElecMeterID itself, and it never retrieves anything. *)
Theorem C66_documented_refuted : forall (ms : list (node app)) i b d, getitem matches order ms (GroupID [Int i; Int b; Str d]) = Err KeyError.
Proof.
  intros ms i b d. apply (by_ids matches order). intros g I (m & -> & S). destruct (proj2 (S (Int i)) (Member_in _ [Int i; Int b; Str d] (or_introl eq_refl))) as (y & Iy & E).
  apply in_map_iff in Iy. destruct Iy as (x & <- & _). destruct x; discriminate.
Qed.
End Claims.
Print Assumptions C66_meter_id.
Print Assumptions C66_meter_id_meter.
Print Assumptions C66_group_id.
Print Assumptions C66_list.
Print Assumptions C66_instances.
Print Assumptions C66_mains.
Print Assumptions C66_triple.
Print Assumptions C66_number.
Print Assumptions C66_number_sound.
Print Assumptions C66_appliance.
Print Assumptions C66_appliance_errors.
Print Assumptions C66_pair.
Print Assumptions C66_type_error.
Print Assumptions C66_from_list.
Print Assumptions C66_from_list_total.
Print Assumptions C66_round_trip.
Print Assumptions C66_repeated.
Print Assumptions C66_other_group_refuted.
Print Assumptions C66_documented_refuted.

(** A meter in a nested group is found by its number but not by its identifier. *)
Theorem C66_nested_refuted : exists (ms : list (node ex_app)) (x : node ex_app), In x (concat (map leaves ms)) /\
  ex_get ms (instance x) = Ok (One x) /\ ex_get ms (ident x) = Err KeyError.
Proof. exists ex_group, (ex_m 3 false [(6%nat, 1)]). split; [right; right; left; reflexivity|]. split; reflexivity. Qed.
Print Assumptions C66_nested_refuted.
(** A meter two groups deep is not found by its number either. *)
Theorem C66_deep_refuted : exists (ms : list (node ex_app)) k x, Forall numbered (concat (map leaves ms)) /\
  filter (has_number k) (concat (map leaves ms)) = [x] /\ ex_get ms (Int k) = Err KeyError.
Proof. exists [Grp [Grp [ex_m 1 false []]]], 1, (ex_m 1 false []). split; [repeat constructor|]. split; reflexivity. Qed.
Print Assumptions C66_deep_refuted.
(** And then one of two meters with the same number can be returned silently. *)
Theorem C66_silent_refuted : exists (ms : list (node ex_app)) k x y, Forall numbered (concat (map leaves ms)) /\
  filter (has_number k) (concat (map leaves ms)) = [x; y] /\ x <> y /\ ex_get ms (Int k) = Ok (One y).
Proof.
  exists [Grp [Grp [ex_m 1 false []]]; ex_m 1 true []], 1, (ex_m 1 false []), (ex_m 1 true []).
  split; [repeat constructor|]. split; [reflexivity|]. split; [discriminate|reflexivity].
Qed.
Print Assumptions C66_silent_refuted.

(** The hypotheses are met: the group of meters 1 (mains), 2 and a group of 3 and 4. *)
Example C66_example_ids :
  ex_get ex_group (MeterID (Int 2) (Int 1) (Str 9)) = Ok (One (ex_m 2 false [(5%nat, 1)])) /\
  ex_get ex_group (Tup [Int 2; Int 1; Str 9]) = Ok (One (ex_m 2 false [(5%nat, 1)])) /\
  ex_get ex_group (MeterID (Int 7) (Int 1) (Str 9)) = Err KeyError /\
  ex_get ex_group (GroupID [ident (ex_m 4 false []); ident (ex_m 3 false [])]) = Ok (One (Grp [ex_m 3 false [(6%nat, 1)]; ex_m 4 false [(6%nat, 1)]])) /\
  ex_get ex_group (Lst [ident (ex_m 3 false []); ident (ex_m 3 false [])]) = Err KeyError /\
  ex_get ex_group (MeterID (Tup [Int 4; Int 3]) (Int 1) (Str 9)) = Ok (One (Grp [ex_m 3 false [(6%nat, 1)]; ex_m 4 false [(6%nat, 1)]])).
Proof. repeat split. Qed.
Example C66_example_numbers : Forall shallow ex_group /\ Forall numbered (concat (map leaves ex_group)) /\
  ex_get ex_group (Int 3) = Ok (One (ex_m 3 false [(6%nat, 1)])) /\ ex_get ex_group (Int 8) = Err KeyError /\
  ex_get (ex_group ++ [ex_m 3 false []]) (Int 3) = Err GenericException /\
  ex_get ex_group (Tup [Int 3; Int 1]) = Ok (New [One (ex_m 3 false [(6%nat, 1)]); One (ex_m 1 true [])]).
Proof. repeat split; repeat constructor. Qed.
Example C66_example_mains : ex_get ex_group (MeterID (Int 0) (Int 1) (Str 9)) = Ok (One (ex_m 1 true [])) /\
  Filtered has_site [ex_m 1 true []; ex_m 2 false []] [ex_m 1 true []] /\
  ex_get ex_group (MeterID (Int 0) (Int 2) (Str 9)) = Err KeyError /\
  ex_get [Grp [ex_m 1 true []; Meter (Int 1) (Int 2) (Str 9) true []]] (MeterID (Int 0) (Int 1) (Str 9)) = Err RuntimeError.
Proof.
  repeat split. constructor.
  - exists (Int 1), (Int 1), (Str 9), []. left. reflexivity.
  - constructor; [|constructor]. intros (i & b & d & a & [E|[]]). discriminate.
Qed.
Example C66_example_appliances :
  (forall a q, exists b, ex_matches a q = Ok b) /\
  ex_get ex_group (Str 5) = Ok (One (ex_m 2 false [(5%nat, 1)])) /\
  ex_get ex_group (Str 6) = Ok (One (Grp [ex_m 3 false [(6%nat, 1)]; ex_m 4 false [(6%nat, 1)]])) /\
  ex_get ex_group (Tup [Str 6; Int 2]) = Err KeyError /\
  ex_get (ex_group ++ [ex_m 7 false [(5%nat, 1)]]) (Dict [(type_key, Str 5)]) = Err GenericException.
Proof. split; [intros a q; eexists; reflexivity|]. repeat split. Qed.
Example C66_example_bulk : Forall ordinary (map ident ex_group) /\
  from_list ex_matches ex_order ex_group (map ident ex_group) = Ok (New (map One ex_group)) /\
  from_list ex_matches ex_order ex_group [GroupID [ident (ex_m 2 false []); ident (ex_m 1 false []); ident (ex_m 2 false [])]] = Ok (New [New [One (ex_m 2 false [(5%nat, 1)]); One (ex_m 1 true [])]]) /\
  from_list ex_matches ex_order ex_group [ident (ex_m 3 false [])] = Err KeyError /\
  (forall y, In y [ex_m 1 true []; ex_m 2 false []] -> numbered y /\ instance y <> Int 0).
Proof.
  split; [repeat (constructor; try lia)|]. split; [reflexivity|]. split; [reflexivity|]. split; [reflexivity|].
  intros y [<-|[<-|[]]]; (split; [exact I|discriminate]).
Qed.
Example C66_example_errors : ex_get ex_group (Bool true) = Err TypeError /\ ex_get ex_group (Tup []) = Err TypeError /\ ex_get ex_group (Lst [Int 1]) = Err TypeError /\ malformed (Lst [Int 1]).
Proof. repeat split. exists (Int 1). split; [left|]; reflexivity. Qed.
