(** What a request for columns means. *)
From Verif Require Import Base EnergyModel PipelineModel ColumnsModel.
Open Scope nat_scope.

(** The AC type to prefer for a quantity: active, else apparent, else reactive. *)
Definition preferred (ms : list measurement) (p : pq) (a : acname) : Prop :=
  In (p, Some a) ms /\
  match a with
  | Known Active => True
  | Known Apparent => ~ In (p, Some (Known Active)) ms
  | Known Reactive => ~ In (p, Some (Known Active)) ms /\ ~ In (p, Some (Known Apparent)) ms
  | OtherName _ => False
  end.

Definition pq_wanted (arg : pq_arg) (p : pq) : Prop :=
  match arg with PqNone | PqList [] => True | PqName q => p = q | PqList l => In p l end.
Definition ac_wanted (ms : list measurement) (arg : ac_arg) (c : column) : Prop :=
  match arg with
  | AcNone | AcList [] => True
  | AcBest => exists a, snd c = Some a /\ preferred ms (fst c) a
  | AcName a => snd c = Some a
  | AcList l => exists a, snd c = Some a /\ In a l
  end.
(** The meter has the column and the request asks for it. *)
Definition wanted (ms : list measurement) (p : pq_arg) (a : ac_arg) (c : column) : Prop :=
  In c ms /\ pq_wanted p (fst c) /\ ac_wanted ms a c.

(** The names in the request exist. *)
Definition pq_known (p : pq) : Prop := match p with OtherPQ _ => False | _ => True end.
Definition valid_pq (arg : pq_arg) : Prop := match arg with PqNone => True | PqName p => pq_known p | PqList l => Forall pq_known l end.
Definition ac_known (a : acname) : Prop := match a with Known _ => True | OtherName _ => False end.
Definition valid_ac (arg : ac_arg) : Prop := match arg with AcNone | AcBest => True | AcName a => ac_known a | AcList l => Forall ac_known l end.

(** [list(set(l))]. *)
Definition set_order {A} (setlist : list A -> list A) : Prop := forall l, NoDup (setlist l) /\ forall x, In x (setlist l) <-> In x l.

(** The names in a request exist; for [ac_type='best'] without a quantity all
    quantities of the meter count as requested, and an empty list does not. *)
Definition understood (ms : list measurement) (p : pq_arg) (a : ac_arg) : Prop :=
  valid_pq p /\ valid_ac a /\ (a = AcBest -> p = PqNone -> Forall (fun m => pq_known (fst m)) ms) /\ ~ (a = AcBest /\ p = PqList []).
