(** Vocabulary for switches. *)
From Verif Require Import Base SwitchModel.
Open Scope nat_scope.

(** In the series [l], the reading at [t] differs from the reading just before
    it by more than the threshold. *)
Definition switch_at (threshold : Z) (l : chunk) (t : Z) : Prop :=
  exists before t0 p x after, l = before ++ (t0, Some p) :: (t, Some x) :: after /\ (threshold < Z.abs (x - p))%Z.

(** The timestamps of a series strictly rise. *)
Fixpoint rising (l : list Z) : Prop :=
  match l with
  | a :: ((b :: _) as r) => (a < b)%Z /\ rising r
  | _ => True
  end.
Definition times (l : chunk) : list Z := map fst l.

(** [n] of the [submeters] have a switch at [t] in one of their chunks. *)
Inductive switching (threshold : Z) (t : Z) : list (list chunk) -> nat -> Prop :=
  | switching_nil : switching threshold t [] 0
  | switching_yes m l n : (exists c, In c m /\ switch_at threshold c t) -> switching threshold t l n -> switching threshold t (m :: l) (S n)
  | switching_no m l n : (forall c, In c m -> ~ switch_at threshold c t) -> switching threshold t l n -> switching threshold t (m :: l) n.
