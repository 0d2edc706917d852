(** Vocabulary for the API data handling. *)
From Verif Require Import Base ApiModel.
Open Scope Z_scope.

(** Strictly increasing timestamps. *)
Fixpoint rising (l : list Z) : Prop :=
  match l with
  | [] => True
  | x :: r => (forall y, In y r -> x < y) /\ rising r
  end.

(** The frame has a row at [t] in which nothing is missing. *)
Definition complete_at (f : frame) (t : Z) : Prop := exists c, In (t, c) f /\ ~ In None c.

(** [t] is a timestamp at which mains and all appliances have complete rows. *)
Definition usable (mains : frame) (appliances : list frame) (t : Z) : Prop :=
  complete_at mains t /\ forall a, In a appliances -> complete_at a t.

(** [f'] consists of the rows of [f] at the timestamps [ix], values unchanged. *)
Definition restricted (f : frame) (ix : list Z) (f' : frame) : Prop :=
  map fst f' = ix /\ forall r, In r f' -> In r f.

Definition one_column (f : frame) : Prop := forall r, In r f -> length (snd r) = 1%nat.

(** Chunks with the same number cover the same period: a timestamp of the mains
    is found, in every appliance, only in the chunk with the same number. *)
Definition aligned (mains : list frame) (appliances : list (list frame)) : Prop :=
  forall i j chunks t, In chunks appliances -> complete_at (nth_chunk mains i) t -> complete_at (nth_chunk chunks j) t -> i = j.

(** The one column of a frame. *)
Definition column (f : frame) : list (Z * option Z) := map (fun r => (fst r, hd None (snd r))) f.
