(** Vocabulary for importing raw data. *)
From Coq Require Import String Ascii Sorted Permutation.
From Verif Require Import Base RawModel.
Import List. Open Scope list_scope. Open Scope nat_scope.

Section Spec.
  Context {V : Type}.

  (** The raw data of channel [c] of house [h]: the rows of the file
      house_<h>/channel_<c>.dat. *)
  Definition channel_file (d : root V) (h c : Z) (raw : res (rows V)) : Prop :=
    exists files, In (("house_" ++ decimal h)%string, Some files) d /\ In (("channel_" ++ decimal c ++ ".dat")%string, Some raw) files.

  (** The names in each directory are distinct. *)
  Definition proper (d : root V) : Prop :=
    NoDup (map fst d) /\ forall n files, In (n, Some files) d -> NoDup (map fst files).

  (** [sorter] sorts by time. *)
  Definition sorts (sorter : rows V -> rows V) : Prop :=
    forall l, Permutation (sorter l) l /\ StronglySorted Z.le (map fst (sorter l)).

  (** [out] are the rows of [l] whose time has not occurred before in [l]. *)
  Definition first_of_each (l out : rows V) : Prop :=
    exists keep : list bool, length keep = length l /\ out = map snd (filter fst (combine keep l)) /\
      forall i r b, nth_error l i = Some r -> nth_error keep i = Some b ->
        (b = true <-> forall j r', j < i -> nth_error l j = Some r' -> fst r' <> fst r).
End Spec.

(** Files that are recognised: a house with one digit, a channel with one or two
    digits followed by any character and "dat". *)
Definition is_digit (c : ascii) (n : Z) : Prop := (0 <= n <= 9)%Z /\ c = ascii_of_nat (48 + Z.to_nat n).
Definition house_name (s : string) (h : Z) : Prop := exists c, is_digit c h /\ s = ("house_" ++ String c "")%string.
Definition channel_name (s : string) (n : Z) : Prop :=
  (exists a x, is_digit a n /\ s = ("channel_" ++ String a (String x "dat"))%string) \/
  (exists a b p q x, is_digit a p /\ is_digit b q /\ n = (10 * p + q)%Z /\ s = ("channel_" ++ String a (String b (String x "dat")))%string).

Section Spec2.
  Context {V : Type}.

  (** The converter sees a channel [c] in a house [h]. *)
  Definition recognised (d : root V) (h c : Z) : Prop :=
    exists hn files cn raw, In (hn, Some files) d /\ house_name hn h /\ In (cn, Some raw) files /\ channel_name cn c.

  (** The order in which channels are imported. *)
  Definition before (a b : Z * Z) : Prop := (fst a < fst b)%Z \/ (fst a = fst b /\ snd a < snd b)%Z.

  (** What is kept of the rows of a UK-DALE file. *)
  Definition as_asked (drop_duplicates : bool) (raw l : rows V) : Prop := if drop_duplicates then first_of_each raw l else l = raw.

  (** Two ways of sorting rows by time: rows of equal time in their order
      ([eq = true]) or in reverse. *)
  Fixpoint insert_row (eq : bool) (r : Z * V) (l : rows V) : rows V :=
    match l with
    | [] => [r]
    | x :: l' => if (fst r <? fst x)%Z || (eq && (fst r =? fst x)%Z) then r :: l else x :: insert_row eq r l'
    end.
  Definition sort_rows (eq : bool) (l : rows V) : rows V := fold_right (insert_row eq) [] l.
End Spec2.
