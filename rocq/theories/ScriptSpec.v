(** Vocabulary for activity scripts. *)
From Coq Require Import Permutation.
From Verif Require Import Base ActivationsModel ActivationsSpec ScriptModel.
Open Scope nat_scope.

(** The documented behaviour of [sort_index]. *)
Fixpoint in_time_order (s : script) : Prop :=
  match s with
  | a :: ((b :: _) as r) => (fst a <= fst b)%Z /\ in_time_order r
  | _ => True
  end.
Definition sorts (sort_index : script -> script) : Prop := forall s, Permutation s (sort_index s) /\ in_time_order (sort_index s).

(** The activation [a] begins at [t] / ends at [t]. *)
Definition begins (a : list sample) (t : Z) : Prop := exists v r, a = (t, v) :: r.
Definition ends (a : list sample) (t : Z) : Prop := exists v r, a = r ++ [(t, v)].

(** The script tells starts and ends by turns: start, end, start, end, ... with
    the times of the activations in order. *)
Inductive by_turns : list (list sample) -> script -> Prop :=
  | turns_nil : by_turns [] []
  | turns_cons a l s e r : begins a s -> ends a e -> by_turns l r -> by_turns (a :: l) ((s, true) :: (e, false) :: r).

(** Each activation takes time and ends before the next one begins. *)
Fixpoint separate (l : list (list sample)) : Prop :=
  match l with
  | [] => True
  | a :: r => (exists s e, begins a s /\ ends a e /\ (s < e)%Z) /\
      match r with [] => True | b :: _ => exists e s, ends a e /\ begins b s /\ (e < s)%Z end /\ separate r
  end.

(** Timestamps strictly rise. *)
Definition strictly_ordered (chunk : list sample) : Prop :=
  forall i j a b, i < j -> nth_error chunk i = Some a -> nth_error chunk j = Some b -> (fst a < fst b)%Z.

(** Readings that are at most [k] rows apart are less than [d] apart in time. *)
Definition dense (chunk : list sample) (k : nat) (d : Z) : Prop :=
  forall i j a b, i <= j -> j <= i + k -> nth_error chunk i = Some a -> nth_error chunk j = Some b -> (fst b - fst a < d)%Z.

(** All submeters of all buildings, in order, with the instance of the building. *)
Definition all_submeters (buildings : list (nat * list submeter)) : list (nat * submeter) :=
  flat_map (fun p => map (pair (fst p)) (snd p)) buildings.

(** [s] is the script of the activations of meter [m]; the key of its dominant
    appliance is [k]; [s] is the script of the last submeter with that key. *)
Definition meter_script (sort_index : script -> script) (m : submeter) (s : script) : Prop :=
  exists acts, activations_of m = Ok acts /\ activity_script sort_index acts = Ok s.
Definition key_is (e : nat * submeter) (k : skey) : Prop := exists app, dominant (snd e) = Some app /\ k = (fst e, app).
Definition last_script (sort_index : script -> script) (l : list (nat * submeter)) (k : skey) (s : script) : Prop :=
  exists before e after, l = before ++ e :: after /\ key_is e k /\ meter_script sort_index (snd e) s /\ forall e', In e' after -> ~ key_is e' k.
