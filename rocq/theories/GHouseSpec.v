(** Vocabulary for joining the blocks of a GREEND house (C110). *)
From Coq Require Import String Permutation Sorted.
From Verif Require Import Base GHouseModel.
Import List. Open Scope list_scope. Open Scope nat_scope.

(** A block has the value [v] at time [t] in column [c]. *)
Definition has_value {A} (f : frame A) (c : string) (t : Z) (v : option A) : Prop :=
  exists r i, In r (f_rows f) /\ fst r = t /\ nth_error (f_cols f) i = Some c /\ nth_error (snd r) i = Some v.
(** Frames as pandas has them: columns are distinct and rows are complete. *)
Definition rectangular {A} (f : frame A) : Prop :=
  NoDup (f_cols f) /\ forall r, In r (f_rows f) -> List.length (snd r) = List.length (f_cols f).
(** The times of all rows of all blocks. *)
Definition times {A} (fs : list (frame A)) : list Z := flat_map (fun f => map fst (f_rows f)) fs.
(** [srt] sorts the rows of these blocks by time. *)
Definition sorts {A} (srt : list (Z * list (option A)) -> list (Z * list (option A))) (fs : list (frame A)) : Prop :=
  forall f, concat_frames fs = Ok f -> Permutation (srt (f_rows f)) (f_rows f) /\ StronglySorted Z.le (map fst (srt (f_rows f))).
(** [cols] are the columns of the blocks, each once. *)
Definition columns_of {A} (fs : list (frame A)) (cols : list string) : Prop :=
  NoDup cols /\ forall c, In c cols <-> exists f, In f fs /\ In c (f_cols f).
