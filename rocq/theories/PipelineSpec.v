(** Vocabulary for pipeline properties. *)
From Verif Require Import Base TimeFrameModel StoreModel EnergyModel PipelineModel.
Open Scope Z_scope.

(** [at_path m p v]: following the keys [p] from [m] leads to [v]. *)
Inductive at_path : meta -> list key -> meta -> Prop :=
  | at_here m : at_path m [] m
  | at_step items k v p w : In (k, v) items -> at_path v p w -> at_path (Dict items) (k :: p) w.

(** No dictionary inside [m] repeats a key. *)
Inductive well_formed : meta -> Prop :=
  | wf_any : well_formed AnyValue
  | wf_atom n : well_formed (Atom n)
  | wf_dict items : NoDup (map fst items) -> (forall k v, In (k, v) items -> well_formed v) -> well_formed (Dict items).

(** What one requirement [v] at some path asks of the value there. *)
Definition meets (v w : meta) : Prop :=
  match v with AnyValue => True | Atom _ => w = v | Dict _ => True end.

(** The end points of the requirements tree. *)
Definition end_point (v : meta) : Prop :=
  match v with Dict (_ :: _) => False | _ => True end.

(** Every end point of the requirements is present in the state and met there. *)
Definition all_met (state requirements : meta) : Prop :=
  forall p v, at_path requirements p v -> end_point v -> exists w, at_path state p w /\ meets v w.

(** The requirement that the message reports, and that it is not met. *)
Definition reports (state requirements : meta) (m : message) : Prop :=
  exists p req st k v, at_path requirements p (Dict req) /\ at_path state p (Dict st) /\ In (k, v) req /\
    ((m = NotInState k v /\ forall w, ~ In (k, w) st) \/
     (exists w, m = OtherValue k v w /\ In (k, w) st /\ (exists n, v = Atom n) /\ v <> w)).

(** A dictionary is required where the state holds something else. *)
Definition clash (state requirements : meta) : Prop :=
  exists p kv req w, at_path requirements p (Dict (kv :: req)) /\ at_path state p w /\ (forall d, w <> Dict d).

(** [y] is the point of [lo, hi] nearest to [x]. *)
Definition nearest_in (lo hi x y : Z) : Prop :=
  lo <= y <= hi /\ forall z, lo <= z <= hi -> Z.abs (x - y) <= Z.abs (x - z).

(** The names of AC types, best first. *)
Definition better (a b : acname) : Prop :=
  match a, b with
  | Known Active, Known Apparent | Known Active, Known Reactive | Known Apparent, Known Reactive => True
  | _, _ => False
  end.

(** The lower (upper) limit in force for column [c]: the node's own setting if
    it has one, else the one in the metadata. *)
Definition limit_in_force (own : option Z) (get : measurement -> option Z) (ms : list measurement) (c : column) (l : option Z) : Prop :=
  match own with
  | Some x => l = Some x
  | None => (exists m, In m ms /\ me_column m = c /\ l = get m) \/ ((forall m, In m ms -> me_column m <> c) /\ l = None)
  end.
(** Each column is described at most once. *)
Definition described_once (ms : list measurement) : Prop :=
  forall m m', In m ms -> In m' ms -> me_column m = me_column m' -> m = m'.
