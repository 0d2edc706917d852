(** C90: importing the ECO data set. *)
From Coq Require Import String Ascii Sorted.
From Verif Require Import Base EcoModel EcoSpec EcoProofs EcoProofs2 EcoProofs3.
Import List. Open Scope list_scope. Open Scope nat_scope.

(** The tables hold exactly the readings of the files that are not missing:
    meters 1 to 3 the phases of the smart meter, meter [n + 3] plug [n]. *)
Theorem C90_readings {V} gone reactive (nan : V) day py_int d s b m t v : well_named d -> convert_eco gone reactive nan day py_int d = (s, None) ->
  (In (t, v) (stored s b m) <-> sm_reading gone reactive nan day py_int d b m t v \/ plug_reading gone nan day py_int d b (m - 3) t v).
Proof. intros W. exact (readings gone reactive nan day py_int d W s b m t v). Qed.
Print Assumptions C90_readings.

(** They are in the order of time, without repetition. *)
Theorem C90_ordered {V} gone reactive (nan : V) day py_int d s b m : well_named d -> convert_eco gone reactive nan day py_int d = (s, None) -> one_each day py_int d ->
  StronglySorted (fun x y => (fst x < fst y)%Z) (stored s b m).
Proof. intros W. exact (ordered gone reactive nan day py_int d W s b m). Qed.
Print Assumptions C90_ordered.

(** A data set as it should be is converted. *)
Theorem C90_succeeds {V} gone reactive (nan : V) day py_int d : good day py_int d -> exists s, convert_eco gone reactive nan day py_int d = (s, None).
Proof. exact (succeeds gone reactive nan day py_int d). Qed.
Print Assumptions C90_succeeds.

(** Without a file of a smart meter, or without one of a plug, the conversion
    is reported as failed. *)
Theorem C90_missing {V} gone reactive (nan : V) day py_int d : well_named d ->
  (forall b f l sub files fi t, sm_folder py_int d b f l -> In (sub, Dir files) l -> In (fi, t) files -> ~ has ".csv" fi) \/
  (forall b f l sub files fi t, plug_folder py_int d b f l -> In (sub, Dir files) l -> In (fi, t) files -> ~ has ".csv" fi) ->
  exists e, snd (convert_eco gone reactive nan day py_int d) = Some e.
Proof.
  intros W H. destruct (convert_eco gone reactive nan day py_int d) as [s [e|]] eqn:C; [exists e; reflexivity|]. exfalso.
  destruct (both_found gone reactive nan day py_int d W s C) as [(f & b & l & sub & files & fi & t & A) (f' & b' & l' & sub' & files' & fi' & t' & B)].
  destruct H as [H|H]; [exact (H b f l sub files fi t (proj1 A) (proj1 (proj2 A)) (proj1 (proj2 (proj2 A))) (proj2 (proj2 (proj2 A))))|].
  exact (H b' f' l' sub' files' fi' t' (proj1 B) (proj1 (proj2 B)) (proj1 (proj2 (proj2 B))) (proj2 (proj2 (proj2 B)))).
Qed.
Print Assumptions C90_missing.

(** Every entry of the directory must be numbered; what is named as readings
    must be a folder (an archive left beside it makes the conversion fail);
    every subfolder of plugs must be numbered. *)
Theorem C90_entries {V} gone reactive (nan : V) day py_int d s f t : well_named d -> convert_eco gone reactive nan day py_int d = (s, None) -> In (f, t) d -> considered f ->
  (exists b, of_building py_int f b) /\ (has "sm_csv" f \/ has "plugs" f -> exists l, t = Dir l) /\
  forall l sub files b, plug_folder py_int d b f l -> In (sub, Dir files) l -> exists n, py_int sub = Some n.
Proof. intros W. exact (entries gone reactive nan day py_int d W s f t). Qed.
Print Assumptions C90_entries.

(** It is not so that a building's plugs are read whatever their number: of
    fewer than three plug folders nothing is stored. *)
Theorem C90_few_plugs_refuted {V} gone reactive (nan : V) day py_int d s b f l m : well_named d -> convert_eco gone reactive nan day py_int d = (s, None) ->
  In (f, Dir l) d -> (forall f' l', plug_folder py_int d b f' l' -> f' = f) -> n_dirs l < 3 ->
  (forall sub files n t, In (sub, Dir files) l -> In (n, t) files -> exists c, t = File c) ->
  (3 < m)%Z -> stored s b m = [].
Proof. intros W. exact (few_plugs gone reactive nan day py_int d W s b f l m). Qed.
Print Assumptions C90_few_plugs_refuted.

(** Nor that the folder of plugs can have the documented name
    ['<i>_plug_csv']: such a folder is skipped as if it were not there. *)
Theorem C90_documented_name_refuted {V} gone reactive (nan : V) day py_int (before after : listing V) i t b :
  let f := (i ++ "_plug_csv")%string in
  String.length i = 2 -> unique (before ++ (f, t) :: after) -> py_int i = Some b -> ~ has "sm_csv" f -> ~ has "plugs" f ->
  convert_eco gone reactive nan day py_int (before ++ (f, t) :: after) = convert_eco gone reactive nan day py_int (before ++ after).
Proof.
  intros f L U B. apply (skipped_folder gone reactive nan day py_int before after f t b U). subst f. rewrite <- B. f_equal. clear - L.
  destruct i as [|a [|c [|e i]]]; try discriminate L. reflexivity.
Qed.
Print Assumptions C90_documented_name_refuted.

(** * Examples *)
Section Example.
  Let gone (v : Z) : bool := (v =? -1)%Z.
  Let reactive (p a : Z) : Z := (p * a)%Z.
  Let day (s : string) : option Z := if String.eqb s "2012-06-01" then Some 0%Z else if String.eqb s "2012-06-02" then Some 86400%Z else None.
  Let py_int (s : string) : option Z :=
    if String.eqb s "01" then Some 1%Z else if String.eqb s "02" then Some 2%Z else if String.eqb s "03" then Some 3%Z else None.

  Definition sm_line : list Z := map Z.of_nat (seq 101 16).
  Definition sm_day1 : list (list Z) := repeat sm_line (Z.to_nat 86400).
  Definition sm_day2 : list (list Z) := repeat sm_line (Z.to_nat 86399) ++ [repeat (-1)%Z 16].
  Definition plug_day1 : list (list Z) := [-1]%Z :: repeat [7]%Z (Z.to_nat 86399).
  Definition ex : listing Z :=
    [("01_plugs_csv", Dir [("02", Dir [("2012-06-02.csv", File (Ok plug_day1))]);
                           ("01", Dir [("2012-06-02.csv", File (Ok plug_day1)); ("2012-06-01.csv", File (Ok plug_day1))]);
                           ("03", Dir [("2012-06-01.csv", File (Ok plug_day1))])]);
     ("readme.txt", File (Err ValueError));
     ("01_sm_csv", Dir [("01", Dir [("2012-06-02.csv", File (Ok sm_day2)); ("2012-06-01.csv", File (Ok sm_day1))])])]%string.

  Lemma has_dec sub s : sub <> ""%string -> contains sub s = true -> has sub s.
  Proof. intros N. apply contains_has. exact N. Qed.
  Lemma hasn_dec sub s : sub <> ""%string -> contains sub s = false -> ~ has sub s.
  Proof. intros N. apply contains_has_not. exact N. Qed.

  Ltac ins H := cbn [In] in H; repeat match type of H with _ \/ _ => destruct H as [H|H] end; [..|try contradiction].
  Ltac nod := repeat (constructor; [cbn [In map fst]; intuition discriminate|]); constructor.

  Lemma ex_well_named : well_named ex.
  Proof.
    split; [unfold unique; cbn [ex map fst]; nod|].
    intros n l K. unfold ex in K. cbn [In] in K. destruct K as [K|[K|[K|[]]]]; try discriminate K; injection K as <- <-;
      (split; [unfold unique; cbn [map fst]; nod|]); intros n' l' K'; cbn [In] in K'.
    - destruct K' as [K'|[K'|[K'|[]]]]; injection K' as <- <-; (split; [unfold unique; cbn [map fst]; nod|]); intros n'' l'' K''; cbn [In] in K''; intuition discriminate.
    - destruct K' as [K'|[]]; injection K' as <- <-; (split; [unfold unique; cbn [map fst]; nod|]); intros n'' l'' K''; cbn [In] in K''; intuition discriminate.
  Qed.

  Lemma ex_sm b f l : sm_folder py_int ex b f l ->
    b = 1%Z /\ f = "01_sm_csv"%string /\ l = [("01"%string, Dir [("2012-06-02.csv"%string, File (Ok sm_day2)); ("2012-06-01.csv"%string, File (Ok sm_day1))])].
  Proof.
    intros (K & _ & H & B). unfold ex in K. cbn [In] in K. destruct K as [K|[K|[K|[]]]]; try discriminate K; injection K as <- <-.
    - apply contains_has in H; [discriminate H|discriminate].
    - vm_compute in B. injection B as <-. auto.
  Qed.
  Lemma ex_plug b f l : plug_folder py_int ex b f l ->
    b = 1%Z /\ f = "01_plugs_csv"%string /\ l = [("02"%string, Dir [("2012-06-02.csv"%string, File (Ok plug_day1))]);
      ("01"%string, Dir [("2012-06-02.csv"%string, File (Ok plug_day1)); ("2012-06-01.csv"%string, File (Ok plug_day1))]); ("03"%string, Dir [("2012-06-01.csv"%string, File (Ok plug_day1))])].
  Proof.
    intros (_ & NS & H & B & l0 & K & EP). unfold ex in K. cbn [In] in K. destruct K as [K|[K|[K|[]]]]; try discriminate K; injection K as <- <-.
    - vm_compute in B. injection B as <-. destruct EP as [[_ ->]|[X _]]; [auto|]. cbn in X. lia.
    - exfalso. apply NS. apply has_dec; [discriminate|reflexivity].
  Qed.

  Lemma len_sm1 : Z.of_nat (List.length sm_day1) = 86400%Z. Proof. vm_compute. reflexivity. Qed.
  Lemma len_sm2 : Z.of_nat (List.length sm_day2) = 86400%Z. Proof. vm_compute. reflexivity. Qed.
  Lemma len_plug1 : Z.of_nat (List.length plug_day1) = 86400%Z. Proof. vm_compute. reflexivity. Qed.
  Opaque sm_day1 sm_day2 plug_day1.

  Lemma considered_dec f : contains ".txt" f = false -> String.eqb (substring 0 1 f) "." = false -> String.eqb (substring (String.length f - 3) 3 f) ".h5" = false -> considered f.
  Proof. intros A B C. split; [apply hasn_dec; [discriminate|exact A]|]. split; apply String.eqb_neq; assumption. Qed.
  Lemma ex_sm_is : sm_folder py_int ex 1 "01_sm_csv" [("01"%string, Dir [("2012-06-02.csv"%string, File (Ok sm_day2)); ("2012-06-01.csv"%string, File (Ok sm_day1))])].
  Proof. split; [right; right; left; reflexivity|]. split; [apply considered_dec; reflexivity|]. split; [apply has_dec; [discriminate|reflexivity]|reflexivity]. Qed.
  Lemma ex_plug_is : plug_folder py_int ex 1 "01_plugs_csv" [("02"%string, Dir [("2012-06-02.csv"%string, File (Ok plug_day1))]);
      ("01"%string, Dir [("2012-06-02.csv"%string, File (Ok plug_day1)); ("2012-06-01.csv"%string, File (Ok plug_day1))]); ("03"%string, Dir [("2012-06-01.csv"%string, File (Ok plug_day1))])].
  Proof.
    split; [apply considered_dec; reflexivity|]. split; [apply hasn_dec; [discriminate|reflexivity]|]. split; [apply has_dec; [discriminate|reflexivity]|]. split; [reflexivity|].
    eexists. split; [left; reflexivity|]. left. split; [cbn; lia|reflexivity].
  Qed.

  Example C90_example_good : good day py_int ex.
  Proof.
    split.
    - exact ex_well_named.
    - intros f t K CO. unfold ex in K. cbn [In] in K. destruct K as [K|[K|[K|[]]]]; injection K as <- <-.
      + exists 1%Z. split; [reflexivity|]. intros _. split; [lia|eexists; reflexivity].
      + exfalso. apply (proj1 CO). apply has_dec; [discriminate|reflexivity].
      + exists 1%Z. split; [reflexivity|]. intros _. split; [lia|eexists; reflexivity].
    - intros b f l sub files SF K. apply ex_sm in SF. destruct SF as (-> & -> & ->). cbn [In] in K. destruct K as [K|[]]. injection K as <- <-.
      intros fi t K _. cbn [In] in K. destruct K as [K|[K|[]]]; injection K as <- <-.
      + exists sm_day2. split; [reflexivity|]. split; [exact len_sm2|]. vm_compute. discriminate.
      + exists sm_day1. split; [reflexivity|]. split; [exact len_sm1|]. vm_compute. discriminate.
    - intros f l K _ _ HP N. unfold ex in K. cbn [In] in K. destruct K as [K|[K|[K|[]]]]; try discriminate K; injection K as <- <-.
      + cbn in N. lia.
      + apply contains_has in HP; [discriminate HP|discriminate].
    - intros b f l sub files PF K. apply ex_plug in PF. destruct PF as (-> & -> & ->). cbn [In] in K.
      destruct K as [K|[K|[K|[]]]]; injection K as <- <-; (split; [eexists; split; [reflexivity|lia]|]); split;
        [| |  | | |];
        try (eexists; eexists; split; [left; reflexivity|apply has_dec; [discriminate|reflexivity]]);
        intros fi t K _; cbn [In] in K; repeat destruct K as [K|K]; try contradiction; injection K as <- <-; exists plug_day1; (split; [reflexivity|]; split; [exact len_plug1|]; vm_compute; discriminate).
    - exists 1%Z, "01_sm_csv"%string. do 5 eexists. split; [exact ex_sm_is|]. split; [left; reflexivity|]. split; [left; reflexivity|]. apply has_dec; [discriminate|reflexivity].
    - exists 1%Z, "01_plugs_csv"%string. do 5 eexists. split; [exact ex_plug_is|]. split; [left; reflexivity|]. split; [left; reflexivity|]. apply has_dec; [discriminate|reflexivity].
  Qed.

  Lemma ex_order start files : (forall s, In s ["2012-06-01"; "2012-06-02"]%string -> start s = s) ->
    (forall fi, In fi (map fst files) -> fi = "2012-06-01.csv"%string \/ fi = "2012-06-02.csv"%string) -> in_order (V := Z) day start files.
  Proof.
    intros ST F fi fj x y Hi Hj _ _ L N Dx Dy. assert (S1 := ST "2012-06-01"%string (or_introl eq_refl)). assert (S2 := ST "2012-06-02"%string (or_intror (or_introl eq_refl))).
    destruct (F fi Hi) as [-> | ->], (F fj Hj) as [-> | ->].
    - congruence.
    - unfold date in Dx, Dy. cbn [String.length substring Nat.sub] in Dx, Dy. rewrite S1 in Dx. rewrite S2 in Dy. vm_compute in Dx, Dy. injection Dx as <-. injection Dy as <-. lia.
    - discriminate L.
    - congruence.
  Qed.
  Example C90_example_one_each : one_each day py_int ex.
  Proof.
    split; [|split].
    - intros b f l sub files f' l' sub' files' S1 K1 S2 K2. apply ex_sm in S1, S2. destruct S1 as (-> & -> & ->), S2 as (_ & -> & ->).
      cbn [In] in K1, K2. destruct K1 as [K1|[]], K2 as [K2|[]]. injection K1 as <- <-. injection K2 as <- <-. split; [reflexivity|]. split; [reflexivity|].
      apply ex_order; [auto|]. intros fi K. cbn in K. intuition.
    - intros b n f l sub files f' l' sub' files' S1 K1 N1 S2 K2 N2. apply ex_plug in S1, S2. destruct S1 as (-> & -> & ->), S2 as (_ & -> & ->). split; [reflexivity|].
      cbn [In] in K1, K2. destruct K1 as [K1|[K1|[K1|[]]]], K2 as [K2|[K2|[K2|[]]]]; injection K1 as <- <-; injection K2 as <- <-; vm_compute in N1, N2; try congruence;
        (split; [reflexivity|]); (apply ex_order; [intros s [<-|[<-|[]]]; reflexivity|]; intros fi K; cbn in K; intuition).
    - intros b f l sub files n S1 K1 N1. apply ex_plug in S1. destruct S1 as (-> & -> & ->). cbn [In] in K1. destruct K1 as [K1|[K1|[K1|[]]]]; injection K1 as <- <-; vm_compute in N1; injection N1 as <-; lia.
  Qed.
  Transparent sm_day1 sm_day2 plug_day1.

  Let run := convert_eco gone reactive 0%Z day py_int.
  Example C90_example_run :
    (let (s, o) := run ex in (o, map (fun k => Z.of_nat (List.length (stored s 1 k))) [1; 2; 3; 4; 5; 6; 7]%Z,
       match stored s 1 2 with r :: _ => Some r | [] => None end, match stored s 1 5 with r :: _ => Some r | [] => None end)) =
    (None, [172799; 172799; 172799; 172798; 86399; 86399; 0]%Z, Some (0, [103; 107; 110; 115; 11845])%Z, Some (86401, [7])%Z).
  Proof. vm_compute. reflexivity. Qed.

  Definition sm_part := [("01_sm_csv", Dir [("01", Dir [("2012-06-01.csv", File (Ok sm_day1))])])]%string.
  (** Two plugs, one of them with the number of the building: success, and
      nothing is stored. Building 2 has plugs. *)
  Definition few : listing Z := (sm_part ++ [("01_plugs_csv", Dir [("01", Dir [("2012-06-01.csv", File (Ok plug_day1))]); ("02", Dir [("2012-06-01.csv", File (Ok plug_day1))])]);
    ("02_plugs_csv", Dir [("02", Dir [("01", Dir [("2012-06-01.csv", File (Ok plug_day1))])])])]%string).
  Example C90_example_few :
    (let (s, o) := run few in (o, map (fun k => Z.of_nat (List.length (stored s 1 k))) [1; 4; 5]%Z, Z.of_nat (List.length (stored s 2 4)))) = (None, [86400; 0; 0]%Z, 86399%Z).
  Proof. vm_compute. reflexivity. Qed.
  (** One plug of another number: an exception. *)
  Example C90_example_one_plug : snd (run (sm_part ++ [("01_plugs_csv", Dir [("03", Dir [("2012-06-01.csv", File (Ok plug_day1))])])]%string)) = Some GenericException.
  Proof. vm_compute. reflexivity. Qed.
  (** No plugs, a documented name, an archive beside the folder. *)
  Example C90_example_missing : snd (run sm_part) = Some RuntimeError.
  Proof. vm_compute. reflexivity. Qed.
  Example C90_example_documented_name : snd (run (sm_part ++ [("01_plug_csv"%string, snd (hd ("", File (Err ValueError))%string ex))])) = Some RuntimeError /\
    ~ has "sm_csv" "01_plug_csv" /\ ~ has "plugs" "01_plug_csv".
  Proof. split; [vm_compute; reflexivity|]. split; (apply hasn_dec; [discriminate|reflexivity]). Qed.
  Example C90_example_archive : snd (run (ex ++ [("01_sm_csv.zip"%string, File (Err ValueError))])) = Some GenericException.
  Proof. vm_compute. reflexivity. Qed.
End Example.
