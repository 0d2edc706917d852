From Coq Require Import Ascii String DecimalString Decimal Permutation Sorted Lia Bool.
From Verif Require Import Base DataportModel DataportSpec DataportProofs4 SelectModel SelectSpec SelectProofs SelectProofs2.
Import List. Open Scope list_scope. Open Scope Z_scope.

Lemma id_leb_le a b : id_leb a b = true <-> id_le a b.
Proof. unfold id_leb, id_le. destruct (l_id a), (l_id b); try tauto; try (split; [discriminate|tauto]). apply Z.leb_le. Qed.
Lemma id_le_trans a b c : id_le a b -> id_le b c -> id_le a c.
Proof. unfold id_le. destruct (l_id a), (l_id b), (l_id c); try tauto. lia. Qed.
Lemma id_le_total a b : id_leb a b = false -> id_le b a.
Proof. unfold id_leb, id_le. destruct (l_id a), (l_id b); try discriminate; auto. intros H. apply Z.leb_gt in H. lia. Qed.
Lemma insert_perm x l : Permutation (x :: l) (insert_line x l).
Proof.
  induction l as [|y l IH]; cbn; [apply Permutation_refl|]. destruct (id_leb x y); [apply Permutation_refl|]. eapply Permutation_trans; [apply perm_swap|]. now constructor.
Qed.
Lemma insert_sorted x l : StronglySorted id_le l -> StronglySorted id_le (insert_line x l).
Proof.
  induction l as [|y l IH]; intros H; cbn; [repeat constructor|]. apply StronglySorted_inv in H. destruct H as [H1 H2]. destruct (id_leb x y) eqn:E.
  - apply id_leb_le in E. constructor; [now constructor|]. constructor; [exact E|]. eapply Forall_impl; [|exact H2]. intros a Ha. eapply id_le_trans; eauto.
  - constructor; [now apply IH|]. apply Forall_forall. intros a Ha. apply (Permutation_in _ (Permutation_sym (insert_perm x l))) in Ha. destruct Ha as [<-|Ha]; [now apply id_le_total|].
    rewrite Forall_forall in H2. auto.
Qed.
Theorem sort_lines_sorts : sorts sort_lines.
Proof.
  intros l. split; induction l as [|x l IH]; cbn; [constructor| |constructor|now apply insert_sorted].
  eapply Permutation_trans; [constructor; exact IH|apply insert_perm].
Qed.

(** ** Examples *)
Local Open Scope string_scope.
Definition header : list string := ["dataid"; "grid"; "solar"; "city"; "state"; "building_type"; "house_construction_year"; "egauge_1s_data_availability"].
Definition ln (b : Z) (a g c s : string) : line := mkLine (Some b) (Some a) (Some g) (Some c) (Some s).
Definition described : line := mkLine None (Some "share of the readings") (Some "whole home") (Some "city") (Some "state").
Definition static0 : directory := [("dataset.yaml", Static 0); ("building7.yaml", Static 1); ("meter_devices.yaml", Static 2)].
Definition lines0 : list line := [ln 8 "98%" "yes" "Austin" "Texas"; ln 3 "90%" "yes" "Austin" "Texas"; ln 4 "99%" "no" "Ithaca" "New York"; ln 5 "100%" "yes" "Ithaca" "New York"; ln 6 "97%" "yes" "Boulder" "Colorado"].
Lemma header_complete : complete header.
Proof. intros c H. cbn in *. tauto. Qed.
Lemma nodup_distinct rest : NoDup (map l_id rest) -> distinct rest.
Proof.
  intros N i j l l' Hi Hj _ _ E. rewrite NoDup_nth_error in N. apply N.
  - rewrite map_length. apply nth_error_Some. congruence.
  - rewrite !nth_error_map, Hi, Hj. cbn. now rewrite E.
Qed.
Lemma lines0_distinct : distinct lines0.
Proof. apply nodup_distinct. cbn. repeat constructor; cbn; intuition discriminate. Qed.
Lemma lines0_numbers : numbers lines0.
Proof. intros l H _. cbn in H. repeat (destruct H as [<-|H]; [eexists; reflexivity|]). destruct H. Qed.

Theorem no_description : exists (typ : nat -> nat) fs names h l l',
  complete h /\ eligible l /\ place l "Austin, Texas" /\ l_id l = Some 5 /\ file_rows (fs 0%nat) 5 = [rd] /\ names = [0%nat] /\
  convert_dataport sort_lines typ fs names [] (mkSheet h [l]) = Ok ([], []) /\
  exists t d, convert_dataport sort_lines typ fs names [] (mkSheet h [l'; l]) = Ok (t, d) /\ table t (1%nat, 1%nat) = [(10, Some 4000)] /\ map fst d = ["building1.yaml"].
Proof.
  exists typ0, (fun _ => mkFile [Grid] [[rd]]), [0%nat], header, (ln 5 "99%" "yes" "Austin" "Texas"), described.
  split; [exact header_complete|]. split; [cbv; auto|]. split; [exists "Austin", "Texas"; auto|]. split; [reflexivity|]. split; [reflexivity|]. split; [reflexivity|]. split; [vm_compute; reflexivity|].
  eexists _, _. split; [vm_compute; reflexivity|]. split; reflexivity.
Qed.
Theorem listed_two : exists (typ : nat -> nat) fs names h first l t d md,
  complete h /\ eligible l /\ l_id l = Some 5 /\ place l "Austin, Texas" /\ file_rows (fs 0%nat) 5 = [rd] /\ names = [0%nat] /\
  convert_dataport sort_lines typ fs names [] (mkSheet h [first; l; l]) = Ok (t, d) /\
  table t (1%nat, 1%nat) = [(10, Some 4000); (10, Some 4000)] /\ d = [("building1.yaml", Building 5 md "Austin, Austin, Texas, Texas")].
Proof.
  exists typ0, (fun _ => mkFile [Grid] [[rd]]), [0%nat], header, described, (ln 5 "99%" "yes" "Austin" "Texas"). eexists _, _, _.
  split; [exact header_complete|]. split; [cbv; auto|]. split; [reflexivity|]. split; [exists "Austin", "Texas"; auto|]. split; [reflexivity|]. split; [reflexivity|]. split; [vm_compute; reflexivity|].
  split; reflexivity.
Qed.
Theorem no_city : exists (typ : nat -> nat) fs names h first l l',
  complete h /\ distinct [l; l'] /\ numbers [l; l'] /\ l_id l' = Some 9 /\ ~ In 9 (buildings_of (fs 0%nat)) /\ names = [0%nat] /\
  convert_dataport sort_lines typ fs names [] (mkSheet h [first; l; l']) = Err TypeError /\
  exists t d, convert_dataport sort_lines typ fs names [] (mkSheet h [first; l]) = Ok (t, d) /\ table t (1%nat, 1%nat) = [(10, Some 4000)].
Proof.
  exists typ0, (fun _ => mkFile [Grid] [[rd]]), [0%nat], header, described, (ln 5 "99%" "yes" "Austin" "Texas"), (mkLine (Some 9) (Some "99%") (Some "yes") None (Some "Texas")).
  split; [exact header_complete|]. split; [apply nodup_distinct; cbn; repeat constructor; cbn; intuition discriminate|].
  split; [intros l [<-|[<-|[]]] _; eexists; reflexivity|]. split; [reflexivity|]. split; [cbn; intuition discriminate|]. split; [reflexivity|]. split; [vm_compute; reflexivity|].
  eexists _, _. split; [vm_compute; reflexivity|]. reflexivity.
Qed.
