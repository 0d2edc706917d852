(** Vocabulary for opening a data set. *)
From Coq Require Import String Permutation Sorted.
From Verif Require Import Base OpenModel.
Import List.
Open Scope list_scope.
Open Scope nat_scope.

(** [a] comes before [b] in dictionary order. *)
Definition before (a b : string) : Prop := String.compare a b = Lt.

(** What [buildings[k]] finds. *)
Definition get_building {V} (k : option Z) (d : list (option Z * V)) : option V :=
  match find (fun p => okey_eqb k (fst p)) d with Some p => Some (snd p) | None => None end.

Section Spec.
  Context {R E : Type} (load_metadata : string -> res (building_md R)) (import_elec : R -> option Z -> option string -> res E).

  (** [b] is the building described by the metadata under [key]; its data set
      is the one named there, else the one being opened. *)
  Definition described (dataset_name : option string) (key : string) (b : building E) : Prop :=
    exists md elec, load_metadata key = Ok md /\ b_instance b = md_instance md /\
      (b_dataset b = md_dataset md /\ md_dataset md <> None \/ b_dataset b = dataset_name /\ md_dataset md = None) /\
      import_elec (md_rest md) (b_instance b) (b_dataset b) = Ok elec /\ b_elec b = elec.

  (** Reading the metadata under [key] or creating the meters raises [x]. *)
  Definition fails (dataset_name : option string) (key : string) (x : exn) : Prop :=
    load_metadata key = Err x \/
    exists md d, load_metadata key = Ok md /\ (d = md_dataset md /\ d <> None \/ d = dataset_name /\ md_dataset md = None) /\
      import_elec (md_rest md) (md_instance md) d = Err x.
End Spec.

(** 'building' followed by one digit. *)
Definition digit_name (i : nat) : string :=
  ("building" ++ String (Ascii.ascii_of_nat (48 + i)) EmptyString)%string.
