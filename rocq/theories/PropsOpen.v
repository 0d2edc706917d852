(** C71: opening a data set. *)
From Coq Require Import String Permutation Sorted.
From Verif Require Import Base OpenModel OpenSpec OpenProofs.
Import List.
Open Scope list_scope.
Open Scope nat_scope.

(** The result does not depend on the order in which the store lists its
    elements. *)
Theorem C71_listing_order : forall R E (load_metadata : string -> res (building_md R)) (import_elec : R -> option Z -> option string -> res E) name a b,
  Permutation a b -> open load_metadata import_elec name a = open load_metadata import_elec name b.
Proof. intros. apply open_permutation. assumption. Qed.
Print Assumptions C71_listing_order.

(** [buildings[k]] is a building whose metadata have instance [k], with the data
    set they name or else the one opened; if several have this instance, the one
    whose name comes last. *)
Theorem C71_buildings : forall R E (load_metadata : string -> res (building_md R)) (import_elec : R -> option Z -> option string -> res E) name elements d,
  NoDup elements -> open load_metadata import_elec name elements = Ok d ->
  NoDup (map fst d) /\
  forall k b, get_building k d = Some b <->
    exists n, In n elements /\ described load_metadata import_elec name n b /\ b_instance b = k /\
      forall n' b', In n' elements -> described load_metadata import_elec name n' b' -> b_instance b' = k -> n' = n \/ before n' n.
Proof. intros R E load_metadata import_elec name elements d. apply open_found. Qed.
Print Assumptions C71_buildings.

(** Opening raises exactly if some building does, with the exception of the
    first such building by name. *)
Theorem C71_errors : forall R E (load_metadata : string -> res (building_md R)) (import_elec : R -> option Z -> option string -> res E) name elements x,
  NoDup elements ->
  (open load_metadata import_elec name elements = Err x <->
   exists n, In n elements /\ fails load_metadata import_elec name n x /\
     forall n', In n' elements -> before n' n -> exists b, described load_metadata import_elec name n' b).
Proof. intros R E load_metadata import_elec name elements x. apply open_errors. Qed.
Print Assumptions C71_errors.

(** If the instances differ, there is one building per element, in the
    dictionary order of the elements' names. *)
Theorem C71_order : forall R E (load_metadata : string -> res (building_md R)) (import_elec : R -> option Z -> option string -> res E) name elements d,
  NoDup elements -> open load_metadata import_elec name elements = Ok d ->
  (forall n n' b b', In n elements -> In n' elements -> described load_metadata import_elec name n b -> described load_metadata import_elec name n' b' ->
     b_instance b = b_instance b' -> n = n') ->
  exists names, Permutation names elements /\ StronglySorted before names /\
    Forall2 (fun n p => described load_metadata import_elec name n (snd p) /\ fst p = b_instance (snd p)) names d.
Proof. intros R E load_metadata import_elec name elements d. apply open_order. Qed.
Print Assumptions C71_order.

(** With at most nine buildings, numbered by one digit, this is the order of
    their numbers. *)
Theorem C71_numeric_partial : forall R E (load_metadata : string -> res (building_md R)) (import_elec : R -> option Z -> option string -> res E) name ids d,
  NoDup ids -> Forall (fun i => 1 <= i <= 9) ids ->
  (forall i b, In i ids -> described load_metadata import_elec name (digit_name i) b -> b_instance b = Some (Z.of_nat i)) ->
  open load_metadata import_elec name (map digit_name ids) = Ok d ->
  exists sorted, Permutation sorted ids /\ StronglySorted lt sorted /\ map fst d = map (fun i => Some (Z.of_nat i)) sorted.
Proof. intros R E load_metadata import_elec name ids d. apply open_digits. Qed.
Print Assumptions C71_numeric_partial.

(** ** A concrete case *)

Definition ex_load (key : string) : res (building_md nat) :=
  if String.eqb key "building1" then Ok (mk_md (Some 1%Z) None 5)
  else if String.eqb key "building2" then Ok (mk_md (Some 2%Z) (Some "other"%string) 6)
  else if String.eqb key "building10" then Ok (mk_md (Some 10%Z) None 7)
  else if String.eqb key "copy" then Ok (mk_md (Some 2%Z) None 8)
  else Err AttributeError.
Definition ex_import (r : nat) (i : option Z) (d : option string) : res (list nat) := Ok [r; r].

Example C71_example : exists d, open ex_load ex_import (Some "REDD"%string) ["building2"; "building1"]%string = Ok d /\
  NoDup ["building2"; "building1"]%string /\
  d = [(Some 1%Z, mk_building (Some 1%Z) (Some "REDD"%string) [5; 5]); (Some 2%Z, mk_building (Some 2%Z) (Some "other"%string) [6; 6])].
Proof. eexists. split; [vm_compute; reflexivity|]. split; [repeat constructor; cbn; intuition discriminate|reflexivity]. Qed.

Example C71_example_digits : map digit_name [2; 1] = ["building2"; "building1"]%string /\
  forall i b, In i [2; 1] -> described ex_load ex_import (Some "REDD"%string) (digit_name i) b -> b_instance b = Some (Z.of_nat i).
Proof.
  split; [reflexivity|]. intros i b [<-|[<-|[]]] (md & elec & H1 & H2 & _); vm_compute in H1; injection H1 as <-; exact H2.
Qed.

Example C71_example_error : open ex_load ex_import None ["building1"; "notes"]%string = Err AttributeError.
Proof. reflexivity. Qed.

(** ** What does not hold *)

(** Ten or more buildings are not in the order of their numbers. *)
Theorem C71_numeric_refuted : exists d, open ex_load ex_import None ["building1"; "building2"; "building10"]%string = Ok d /\
  map fst d = [Some 1; Some 10; Some 2]%Z.
Proof. eexists. split; vm_compute; reflexivity. Qed.
Print Assumptions C71_numeric_refuted.

(** A building with the instance of another replaces it without an error. *)
Theorem C71_replaced_refuted : exists d b, open ex_load ex_import None ["building1"; "building2"; "copy"]%string = Ok d /\
  described ex_load ex_import None "building2" b /\ ~ In b (map snd d) /\ length d = 2.
Proof.
  eexists. exists (mk_building (Some 2%Z) (Some "other"%string) [6; 6]). split; [vm_compute; reflexivity|]. split.
  - exists (mk_md (Some 2%Z) (Some "other"%string) 6), [6; 6]. repeat split. left. split; [reflexivity|discriminate].
  - split; [cbn; intuition discriminate|reflexivity].
Qed.
Print Assumptions C71_replaced_refuted.

(** A data set with buildings cannot be saved. *)
Theorem C71_save_refuted : forall E (d : list (option Z * building E)), d <> [] -> save d = Err AttributeError.
Proof. intros E d. apply save_fails. Qed.
Print Assumptions C71_save_refuted.
