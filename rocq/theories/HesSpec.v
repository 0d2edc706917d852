(** Vocabulary for importing the HES data. *)
From Coq Require Import Sorted Permutation.
From Verif Require Import Base HesModel.
Import List. Open Scope list_scope. Open Scope Z_scope.

(** The chunks of files that are complete or missing, as far as they are read:
    at most [limit] of each file. *)
Definition firsts (limit : option Z) (cs : list chunk) : list chunk :=
  match limit with Some n => firstn (Z.to_nat n) cs | None => cs end.
Definition chunks (limit : option Z) (fs : list (option (list chunk))) : list chunk :=
  flat_map (fun f => match f with Some cs => firsts limit cs | None => [] end) fs.
(** The files as the converter sees them: no chunk is unreadable. *)
Definition readable (fs : list (option (list chunk))) : list file := map (option_map (map Ok)) fs.

(** Every time in the chunk has the expected format. *)
Definition timed (c : chunk) : Prop := Forall (fun r => moment r <> None) c.

Definition sorts (sorter : table -> table) : Prop :=
  forall l, Permutation (sorter l) l /\ StronglySorted Z.le (map fst (sorter l)).

(** House [h] has a reading in a chunk; somebody has a reading of appliance [a]. *)
Definition has_house (h : Z) (c : chunk) : bool := existsb (fun r => house r =? h) c.
Definition has_code (a : Z) (c : chunk) : bool := existsb (fun r => code r =? a) c.
(** Both happen in one chunk. *)
Definition together (cs : list chunk) (h a : Z) : Prop :=
  exists c, In c cs /\ has_house h c = true /\ has_code a c = true.

(** The readings of a house, and of one appliance of a house, as they are stored:
    ten times the number in the file. *)
Definition reading (r : row) : table := match moment r with Some t => [(t, 10 * data r)] | None => [] end.
Definition of_house (h : Z) (c : chunk) : table := flat_map reading (filter (fun r => house r =? h) c).
Definition of_appliance (h a : Z) (c : chunk) : table :=
  flat_map reading (filter (fun r => (house r =? h) && (code r =? a)) c).

(** From each chunk with a reading of the house and a reading of [a] by anybody:
    all readings of the house. *)
Definition content (sorter : table -> table) (cs : list chunk) (h a : Z) : table :=
  flat_map (fun c => if has_house h c && has_code a c then sorter (of_house h c) else []) cs.

(** Codes of appliances: neither mains nor circuits nor temperatures. *)
Definition appliance_code (c : Z) : Prop :=
  ~ In c [240; 241] /\ ~ (208 <= c <= 217 \/ c = 222) /\ ~ (251 <= c <= 255).

(** A numbering of buildings and of the meters in each. *)
Definition numbering (cs : list chunk) (building : Z -> nat) (meter : Z -> Z -> nat) : Prop :=
  (forall h h' a a', together cs h a -> together cs h' a' -> building h = building h' -> h = h') /\
  (forall h a a', together cs h a -> together cs h a' -> meter h a = meter h a' -> a = a') /\
  (forall h a, together cs h a -> (1 <= building h)%nat /\ (1 <= meter h a)%nat).

(** [s] holds, for each house and appliance that occur in one chunk, the table
    [content h a], and nothing else. *)
Definition holds (cs : list chunk) (building : Z -> nat) (meter : Z -> Z -> nat) (s : store) (content : Z -> Z -> table) : Prop :=
  (forall h a, together cs h a -> get (building h, meter h a) s = Some (content h a)) /\
  (forall k t, get k s = Some t -> exists h a, together cs h a /\ k = (building h, meter h a)).

Section Metadata.
  Context {name type : Type}.
  Definition type_of (x : appliance name type) : type := snd (fst (fst x)).
  Definition name_of (x : appliance name type) : name := fst (fst (fst x)).
  Definition instance_of (x : appliance name type) : nat := snd (fst x).
  Definition meter_of (x : appliance name type) : nat := snd x.

  (** The metadata describe each house once under its number; in each house a
      meter is described if the codes numbered up to it are all appliances; an
      appliance has the name and type of its code, and its instance counts the
      appliances of its type before it. *)
  Definition described (cs : list chunk) (building : Z -> nat) (meter : Z -> Z -> nat) (names : list (Z * (name * type)))
    (same : type -> type -> bool) (bs : list (HesModel.building name type)) : Prop :=
    NoDup (map (fun b => snd (fst (fst b))) bs) /\
    (forall h, In h (map (fun b => snd (fst (fst b))) bs) <-> exists a, together cs h a) /\
    forall n h ms apps, In (n, h, ms, apps) bs ->
      n = building h /\
      (forall m, In m ms <-> exists a, together cs h a /\ m = meter h a /\
         forall a', together cs h a' -> (meter h a' <= m)%nat -> appliance_code a') /\
      map meter_of apps = ms /\
      (forall x, In x apps -> exists a, together cs h a /\ meter_of x = meter h a /\ lookup a names = Some (name_of x, type_of x)) /\
      (forall l1 x l2, apps = l1 ++ x :: l2 -> instance_of x = Datatypes.S (length (filter (fun y => same (type_of x) (type_of y)) l1))).
End Metadata.
