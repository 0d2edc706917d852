From Coq Require Import Lia Permutation Sorted.
From Verif Require Import Base DataportModel DataportSpec DataportProofs DataportProofs2 DataportProofs3.
Import List. Open Scope Z_scope.

Lemma meters_eq h rs ms : out_of h rs = ms -> meters_of h rs ms.
Proof. intros <-. apply out_meters. Qed.
(** Rows from a list of readings. *)
Definition cells (l : list (col * Z)) (c : col) : option Z := match find (fun x => col_eqb c (fst x)) l with Some (_, v) => Some v | None => None end.
Definition mk (b t : Z) (l : list (col * Z)) : row := mkRow b t (cells l).

Definition two (n : nat) : file :=
  match n with
  | 0%nat => mkFile [Grid; App 1; App 2] [[mk 5 10 [(App 1, 2)]; mk 5 0 [(App 1, 1)]]]
  | _ => mkFile [Grid; App 1; App 2] [[mk 5 20 [(App 2, 7)]]]
  end.
Theorem two_files : exists typ fs names t metas md,
  NoDup names /\ convert typ fs names [5] = Ok (t, metas) /\ metas = [(5, md)] /\
  (forall n, In n names -> steady (fs n) 5 /\ NoDup (f_header (fs n)) /\ exists k, meters_of (f_header (fs n)) (file_rows (fs n) 5) [App k]) /\
  table t (1%nat, 1%nat) = [(0, Some 1000); (10, Some 2000); (20, Some 7000)] /\
  map (fun a => (p_name a, p_meter a)) (m_apps md) = [(App 1, 1%nat); (App 2, 1%nat)].
Proof.
  exists (fun k => k), two, [0%nat; 1%nat]. eexists _, _, _. split; [repeat constructor; cbn; intuition discriminate|]. split; [vm_compute; reflexivity|]. split; [reflexivity|]. split; [|split; reflexivity].
  intros n Hn. assert (K : n = 0%nat \/ n = 1%nat) by (cbn in Hn; intuition). split; [|split].
  - intros ch c Hc _ _ _ H. destruct K as [-> | ->]; destruct Hc as [<-|[]]; exact H.
  - destruct K as [-> | ->]; repeat constructor; cbn; intuition discriminate.
  - destruct K as [-> | ->]; [exists 1%nat|exists 2%nat]; apply meters_eq; reflexivity.
Qed.
Definition months (n : nat) : file :=
  match n with
  | 0%nat => mkFile [Grid; App 1] [[mk 5 0 [(Grid, 3); (App 1, 1)]]]
  | _ => mkFile [Grid; App 1] [[mk 5 10 [(Grid, 4); (App 1, 2)]]]
  end.
Theorem listed_twice : exists typ fs names t metas md,
  NoDup names /\ convert typ fs names [5] = Ok (t, metas) /\ metas = [(5, md)] /\
  (forall n, In n names -> steady (fs n) 5 /\ meters_of (f_header (fs n)) (file_rows (fs n) 5) [Use; App 1]) /\
  m_apps md = [mkApp (App 1) 2 (typ 1%nat) 1; mkApp (App 1) 2 (typ 1%nat) 2].
Proof.
  exists (fun k => k), months, [0%nat; 1%nat]. eexists _, _, _. split; [repeat constructor; cbn; intuition discriminate|]. split; [vm_compute; reflexivity|]. split; [reflexivity|]. split; [|reflexivity].
  intros n Hn. assert (K : n = 0%nat \/ n = 1%nat) by (cbn in Hn; intuition). split.
  - intros ch c Hc _ _ _ H. destruct K as [-> | ->]; destruct Hc as [<-|[]]; exact H.
  - destruct K as [-> | ->]; apply meters_eq; reflexivity.
Qed.

(** *** The chunks matter *)
Definition ra := mk 5 0 [(App 2, 1)].
Definition rb := mk 5 10 [(App 1, 2); (App 2, 3)].
Definition rc := mk 5 0 [(Grid, 4); (Solar, 1)].
Definition rd := mk 5 10 [(Grid, 4)].
Theorem chunks_matter :
  (exists typ fl fl' t t' md md', f_header fl = f_header fl' /\ concat (f_chunks fl) = concat (f_chunks fl') /\ 
    convert typ (fun _ => fl) [0%nat] [5] = Ok (t, [(5, md)]) /\ convert typ (fun _ => fl') [0%nat] [5] = Ok (t', [(5, md')]) /\
    map (fun a => (p_name a, p_meter a)) (m_apps md) = [(App 1, 1%nat); (App 2, 2%nat)] /\
    map (fun a => (p_name a, p_meter a)) (m_apps md') = [(App 2, 1%nat); (App 1, 2%nat)]) /\
  (exists typ fl fl' t t' md md', f_header fl = f_header fl' /\ concat (f_chunks fl) = concat (f_chunks fl') /\ 
    convert typ (fun _ => fl) [0%nat] [5] = Ok (t, [(5, md)]) /\ convert typ (fun _ => fl') [0%nat] [5] = Ok (t', [(5, md')]) /\
    dget Nat.eqb (m_meters md) 1%nat = Some true /\ dget Nat.eqb (m_meters md') 1%nat = Some true /\
    table t (1%nat, 1%nat) = [(0, Some 5000); (10, None)] /\ table t' (1%nat, 1%nat) = [(0, Some 5000); (10, Some 4000)]).
Proof.
  split.
  - exists (fun k => k), (mkFile [App 1; App 2] [[ra; rb]]), (mkFile [App 1; App 2] [[ra]; [rb]]). eexists _, _, _, _. split; [reflexivity|]. split; [reflexivity|].
    split; [vm_compute; reflexivity|]. split; [vm_compute; reflexivity|]. split; reflexivity.
  - exists (fun k => k), (mkFile [Grid; Solar] [[rc; rd]]), (mkFile [Grid; Solar] [[rc]; [rd]]). eexists _, _, _, _. split; [reflexivity|]. split; [reflexivity|].
    split; [vm_compute; reflexivity|]. split; [vm_compute; reflexivity|]. split; [reflexivity|]. split; [reflexivity|]. split; reflexivity.
Qed.
(** *** A building listed twice *)
Theorem ids_twice : exists typ fs names t metas,
  NoDup names /\ convert typ fs names [5; 5] = Ok (t, metas) /\ length metas = 1%nat /\ file_rows (fs 0%nat) 5 = [rd] /\ names = [0%nat] /\
  table t (1%nat, 1%nat) = [(10, Some 4000); (10, Some 4000)].
Proof.
  exists (fun k => k), (fun _ => mkFile [Grid] [[rd]]), [0%nat]. eexists _, _. split; [repeat constructor; intros []|]. split; [vm_compute; reflexivity|]. repeat split.
Qed.
(** *** An example *)
Definition plant : file := mkFile [Other 0; App 3; Grid; Solar; App 4; App 9]
  [[mk 8 30 [(Grid, 2)]; mk 5 30 [(App 3, 1); (Grid, 4); (Solar, 3); (App 4, 2)]];
   [mk 5 10 [(App 3, 2); (Grid, -1); (Solar, 5); (App 4, 3)]; mk 8 10 [(Grid, 6); (App 9, 1)]]].
Definition typ0 (k : nat) : nat := if Nat.leb k 5 then 0%nat else k.
Lemma plant_steady : steady plant 5.
Proof.
  intros ch c Hc Hn Hh M H. destruct Hc as [<-|[<-|[]]]; cbn in Hh; (destruct Hh as [<-|[<-|[<-|[<-|[<-|[<-|[]]]]]]]; try discriminate M;
   try (eexists _, _; split; [left; reflexivity|reflexivity]));
   exfalso; destruct H as (r & v & Hr & E); cbn in Hr; destruct Hr as [<-|[<-|[]]]; discriminate.
Qed.
