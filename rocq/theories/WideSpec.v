(** Vocabulary for importing tables with a column for each meter. *)
From Coq Require Import String Ascii Sorted Permutation.
From Verif Require Import Base StoreSpec RawModel RawSpec WideModel.
Import List. Open Scope list_scope. Open Scope nat_scope.

(** The positions of [times] in the order of time. *)
Definition in_order (times : list Z) (order : list nat) : Prop :=
  Permutation order (seq 0 (length times)) /\ StronglySorted Z.le (map (fun i => nth i times 0%Z) order).

(** What [sort_index] may do: any order of rows with the same time. *)
Definition orders (argsort : list Z -> list nat) : Prop := forall l, in_order l (argsort l).

Section Spec.
  Context {V : Type}.
  Variable stamp : V -> option Z.

  (** Building [b] of the store has one meter for each column, numbered from 1; each holds the
      cells of its column with the times of the lines, in the order of time, the order
      of lines being the same for all; there is no other meter. *)
  Definition building_holds (s : store V) (b : Z) (a : actype) (times : list Z) (cols : list (list V)) : Prop :=
    exists order, in_order times order /\
      (forall k col, nth_error cols k = Some col -> exists l, get s (b, (Z.of_nat k + 1)%Z) = Some ([(Power, Some a)], l) /\
         Forall2 (fun i r => nth_error times i = Some (fst r) /\ nth_error col i = Some (snd r)) order l) /\
      (forall c, (c < 1 \/ Z.of_nat (length cols) < c)%Z -> get s (b, c) = None).

  (** The columns of REFIT that are imported. *)
  Definition power_columns : list string :=
    ["Aggregate"; "Appliance1"; "Appliance2"; "Appliance3"; "Appliance4"; "Appliance5"; "Appliance6"; "Appliance7"; "Appliance8"; "Appliance9"]%string.

  (** Columns have different names and the same number of cells. *)
  Definition rectangular (f : csv V) : Prop := NoDup (map fst f) /\ exists n, Forall (fun c => length (snd c) = n) f.

  (** The times and the imported columns of a file, in the order of the file. *)
  Definition table_of (f : csv V) (times : list Z) (kept : list (string * list V)) : Prop :=
    exists u, In ("Unix"%string, u) f /\ Forall2 (fun v t => stamp v = Some t) u times /\ is_filter (fun c => In (fst c) power_columns) f kept.

  (** A file has all columns; its times are valid. *)
  Definition complete (f : csv V) : Prop := In "Unix"%string (map fst f) /\ forall c, In c power_columns -> In c (map fst f).
  Definition stamped (f : csv V) : Prop := forall u v, In ("Unix"%string, u) f -> In v u -> exists t, stamp v = Some t.

  (** The file of a house: House_<h>.csv if there is a House_1.csv, otherwise
      CLEAN_House<h>.csv. *)
  Definition house_file (d : folder V) (h : Z) (content : res (csv V)) : Prop :=
    ((exists c, In ("House_1.csv"%string, c) d) /\ In (("House_" ++ decimal h ++ ".csv")%string, content) d) \/
    ((forall c, ~ In ("House_1.csv"%string, c) d) /\ In (("CLEAN_House" ++ decimal h ++ ".csv")%string, content) d).

  (** The houses of REFIT and the numbers of their buildings: there is no house 14. *)
  Definition refit_house_id (h : Z) : Prop := (1 <= h <= 21)%Z /\ h <> 14%Z.
  Definition building_of (h : Z) : Z := if (h <=? 13)%Z then h else (h - 1)%Z.

  (** House [h] is in the store. *)
  Definition imported (s : store V) (d : folder V) (h : Z) : Prop :=
    exists f times kept, house_file d h (Ok f) /\ table_of f times kept /\ building_holds s (building_of h) Active times (map snd kept).

  (** A directory: distinct names, rectangular tables. *)
  Definition usable (d : folder V) : Prop := NoDup (map fst d) /\ forall n f, In (n, Ok f) d -> rectangular f.

  (** The lines of DRED, after the first three: 14 cells each, the first a time. *)
  Definition dred_table (nan : V) (lines : list (list V)) (times : list Z) (cols : list (list V)) : Prop :=
    exists a b c rest, lines = a :: b :: c :: rest /\ Forall2 (fun l t => exists v, nth_error l 0 = Some v /\ stamp v = Some t) rest times /\
      length cols = 13 /\
      forall j col, nth_error cols j = Some col -> Forall2 (fun l v => nth_error l (S j) = Some v \/ (nth_error l (S j) = None /\ v = nan)) rest col.
End Spec.

(** One way of putting lines in the order of time. *)
Definition stable_order (l : list Z) : list nat := map snd (RawSpec.sort_rows true (combine l (seq 0 (length l)))).
