(** Vocabulary for chains of nodes. *)
From Verif Require Import Base TimeFrameModel StoreModel EnergyModel PipelineModel PipelineSpec ChainModel.
Import List. Open Scope list_scope. Open Scope nat_scope.

(** The value under a key, and at the end of a path of keys. *)
Fixpoint entry (k : key) (d : list (key * meta)) : option meta :=
  match d with
  | [] => None
  | (k', v) :: r => if Nat.eq_dec k k' then Some v else entry k r
  end.
Fixpoint follow (p : list key) (m : meta) : option meta :=
  match p with
  | [] => Some m
  | k :: q => match m with
              | Dict d => match entry k d with Some v => follow q v | None => None end
              | _ => None
              end
  end.
Definition present (p : list key) (m : meta) : Prop := exists v, follow p m = Some v.

(** The paths the nodes know of. *)
Definition p_measurements := [k_device; k_measurements].
Definition p_sample_period := [k_device; k_sample_period].
Definition p_max_sample_period := [k_device; k_max_sample_period].
Definition p_clip := [k_preprocessing_applied; k_clip].
Definition p_energy := [k_statistics; k_energy].
Definition p_good_sections := [k_statistics; k_good_sections].
Definition p_dropout_rate := [k_statistics; k_dropout_rate].
Definition p_total_energy (ac_type : key) := [k_total_energy; ac_type].

Definition is_dict (m : meta) : Prop := exists d, m = Dict d.
Definition is_atom (m : meta) : Prop := exists n, m = Atom n.

(** Metadata of a meter: no dictionary repeats a key, and where they have an
    entry that some node also writes to, it is of the same sort. *)
Record fits (m : meta) : Prop := mkFits {
  fits_wf : well_formed m;
  fits_dict : forall p v, In p [[]; [k_device]; [k_preprocessing_applied]; p_clip; [k_statistics]; p_energy; [k_total_energy]] ->
    follow p m = Some v -> is_dict v;
  fits_atom : forall p v, (p = p_good_sections \/ p = p_dropout_rate \/ exists a, p = p_total_energy a) ->
    follow p m = Some v -> is_atom v }.

(** The node of kind [k] finds what it asks for in the metadata [m] of the
    meter and in the kinds of the nodes upstream. *)
Definition ready (m : meta) (up : list kind) (k : kind) : Prop :=
  match k with
  | Clip => present p_measurements m
  | Apply => True
  | GoodSections => present p_max_sample_period m
  | TotalEnergy => present p_max_sample_period m /\ (present p_clip m \/ In Clip up)
  | DropoutRate => present p_sample_period m
  end.

(** All kinds but [Apply] read the metadata of the node upstream before the
    first chunk, and [DropoutRate] has none to give before the first chunk. *)
Definition readable (up : list kind) (k : kind) : Prop := k = Apply \/ ~ In DropoutRate up.

(** Every node of the chain (last node first) is ready and can read. *)
Definition supported (m : meta) (chain : list kind) : Prop :=
  forall down k up, chain = down ++ k :: up -> ready m up k /\ readable up k.

(** The nodes of a chain when they are made. *)
Definition made (plan : list (kind * nat * list (key * nat))) : list node :=
  map (fun x => fresh (fst (fst x)) (snd (fst x)) (snd x)) plan.
Definition kinds (plan : list (kind * nat * list (key * nat))) : list kind := map (fun x => fst (fst x)) plan.
(** Each node finds at most one energy for each AC type. *)
Definition sound_plan (plan : list (kind * nat * list (key * nat))) : Prop :=
  forall x, In x plan -> NoDup (map fst (snd x)).

(** What the answers of several nodes come to at one place: the answer of each
    node joins what is there already. *)
Definition gather (join : nat -> nat -> nat) (old : option meta) (new : option nat) : option meta :=
  match new with
  | None => old
  | Some b => match old with Some (Atom a) => Some (Atom (join a b)) | Some w => Some w | None => Some (Atom b) end
  end.
Definition gathered (join : nat -> nat -> nat) (here : kind * nat * list (key * nat) -> option nat)
  (plan : list (kind * nat * list (key * nat))) (old : option meta) : option meta :=
  fold_right (fun x acc => gather join acc (here x)) old plan.

(** The answer of a node for good sections, dropout rate and the energy of one AC type. *)
Definition good_answer (x : kind * nat * list (key * nat)) : option nat :=
  match fst (fst x) with GoodSections => Some (snd (fst x)) | _ => None end.
Definition dropout_answer (x : kind * nat * list (key * nat)) : option nat :=
  match fst (fst x) with DropoutRate => Some (snd (fst x)) | _ => None end.
Definition energy_answer (a : key) (x : kind * nat * list (key * nat)) : option nat :=
  match fst (fst x) with
  | TotalEnergy => match find (fun e => if Nat.eq_dec a (fst e) then true else false) (snd x) with Some e => Some (snd e) | None => None end
  | _ => None
  end.

(** The entry that the documentation of each kind of node (its postconditions)
    promises to provide. *)
Definition promise (k : kind) : option (list key) :=
  match k with
  | Clip => Some p_clip
  | Apply => None
  | GoodSections => Some p_good_sections
  | TotalEnergy => Some p_energy
  | DropoutRate => Some p_dropout_rate
  end.
