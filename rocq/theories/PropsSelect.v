(** C104: which buildings the converter of Dataport's CSV files takes from metadata.csv. *)
From Coq Require Import Ascii String Permutation Sorted.
From Verif Require Import Base DataportModel DataportSpec DataportProofs4 SelectModel SelectSpec SelectProofs2 SelectProofs3.
Import List. Open Scope list_scope. Open Scope Z_scope.

(** If no two eligible buildings have the same number, the eligible ones are converted in
    the order of their numbers, as in C76; the metadata are those that come with NILMTK,
    less building files, and one file for each building with readings, with its name and
    place. *)
Theorem C104_buildings_partial : forall srt, sorts srt -> forall typ fs names static h first rest t d,
  complete h -> numbers rest -> distinct rest -> NoDup (map fst static) ->
  convert_dataport srt typ fs names static (mkSheet h (first :: rest)) = Ok (t, d) ->
  exists ids metas, StronglySorted Z.lt ids /\ (forall b, In b ids <-> exists l, In l rest /\ eligible l /\ l_id l = Some b) /\
    convert typ fs names ids = Ok (t, metas) /\
    NoDup (map fst d) /\
    (forall name c, In (name, c) d <->
       (In (name, c) static /\ String.prefix "building" name = false) \/
       (exists j b md l p, nth_error metas j = Some (b, md) /\ In l rest /\ eligible l /\ l_id l = Some b /\ place l p /\ name = file_name (S j) /\ c = Building b md p)).
Proof. exact selected_ok. Qed.
Print Assumptions C104_buildings_partial.
Example C104_example_buildings : sorts sort_lines /\ complete header /\ numbers lines0 /\ distinct lines0 /\ NoDup (map fst static0) /\
  exists t d, convert_dataport sort_lines typ0 (fun _ => plant) [3%nat] static0 (mkSheet header (described :: lines0)) = Ok (t, d) /\
    map fst d = ["dataset.yaml"; "meter_devices.yaml"; "building1.yaml"; "building2.yaml"]%string /\
    (exists md, In ("building1.yaml", Building 5 md "Ithaca, New York")%string d) /\ (exists md, In ("building2.yaml", Building 8 md "Austin, Texas")%string d) /\
    table t (2%nat, 1%nat) = [(10, Some 6000); (30, Some 2000)].
Proof.
  split; [exact sort_lines_sorts|]. split; [exact header_complete|]. split; [exact lines0_numbers|]. split; [exact lines0_distinct|].
  split; [cbn; repeat constructor; cbn; intuition discriminate|]. eexists _, _. split; [vm_compute; reflexivity|]. split; [reflexivity|].
  split; [eexists; cbn; right; right; left; reflexivity|]. split; [eexists; cbn; right; right; right; left; reflexivity|]. reflexivity.
Qed.

(** It fails exactly if an eligible building has no city or state (TypeError), or readings
    of solar panels without those of the grid (KeyError); the first in the order of the
    numbers decides. *)
Theorem C104_errors : forall srt, sorts srt -> forall typ fs names static h first rest,
  complete h -> numbers rest -> distinct rest ->
  let run := convert_dataport srt typ fs names static (mkSheet h (first :: rest)) in
  let spoilt l := In l rest /\ eligible l /\ (no_place l \/ no_grid fs names l) in
  ((exists p, run = Ok p) <-> forall l, ~ spoilt l) /\
  (forall e, run = Err e <-> exists l, spoilt l /\ (forall l', spoilt l' -> ~ lower l' l) /\
     ((no_place l /\ e = TypeError) \/ (~ no_place l /\ e = KeyError))).
Proof. exact fails_ok. Qed.
Print Assumptions C104_errors.
Example C104_example_errors :
  let sunny := fun _ : nat => mkFile [Grid; Solar] [[mk 5 10 [(Solar, 2)]]; [mk 7 10 [(Grid, 2)]]] in
  let run lines := convert_dataport sort_lines typ0 sunny [0%nat] [] (mkSheet header (described :: lines)) in
  run [mkLine (Some 7) (Some "99%") (Some "yes") (Some "Ithaca") None; ln 5 "99%" "yes" "Austin" "Texas"]%string = Err KeyError /\
  run [mkLine (Some 3) (Some "99%") (Some "yes") (Some "Ithaca") None; ln 5 "99%" "yes" "Austin" "Texas"]%string = Err TypeError /\
  exists p, run [mkLine (Some 3) (Some "96%") (Some "yes") (Some "Ithaca") None; ln 7 "99%" "yes" "Austin" "Texas"]%string = Ok p.
Proof. split; [vm_compute; reflexivity|]. split; [vm_compute; reflexivity|]. eexists. vm_compute. reflexivity. Qed.

(** A file without the columns needed, or an eligible building without a number. *)
Theorem C104_columns : forall srt, sorts srt -> forall typ fs names static h lines,
  (~ In "egauge_1s_data_availability"%string h \/ ~ In "grid"%string h -> convert_dataport srt typ fs names static (mkSheet h lines) = Err AttributeError) /\
  (In "egauge_1s_data_availability"%string h -> In "grid"%string h -> ~ complete h -> convert_dataport srt typ fs names static (mkSheet h lines) = Err KeyError) /\
  (complete h -> (exists l, In l (tl lines) /\ eligible l /\ l_id l = None) -> convert_dataport srt typ fs names static (mkSheet h lines) = Err ValueError).
Proof. exact columns_ok. Qed.
Print Assumptions C104_columns.
Example C104_example_columns :
  let run h lines := convert_dataport sort_lines typ0 (fun _ => plant) [0%nat] [] (mkSheet h (described :: lines)) in
  run ["dataid"; "grid"]%string lines0 = Err AttributeError /\
  run ["dataid"; "grid"; "egauge_1s_data_availability"]%string lines0 = Err KeyError /\
  run header [ln 5 "99%" "yes" "Austin" "Texas"; mkLine None (Some "99%") (Some "yes") (Some "Ithaca") (Some "New York")]%string = Err ValueError.
Proof. vm_compute. auto. Qed.

(** A file with nothing but the names of its columns selects nothing. *)
Theorem C104_empty : forall srt, sorts srt -> forall typ fs names static h, complete h ->
  convert_dataport srt typ fs names static (mkSheet h []) = Ok ([], filter (fun f => negb (String.prefix "building" (fst f))) static).
Proof. exact empty_ok. Qed.
Print Assumptions C104_empty.

(** Neither the order of the lines matters, nor how ties are sorted, nor the first line. *)
Theorem C104_order : forall srt srt' typ fs names static h first first' rest rest', sorts srt -> sorts srt' -> distinct rest -> Permutation rest rest' ->
  convert_dataport srt typ fs names static (mkSheet h (first :: rest)) = convert_dataport srt' typ fs names static (mkSheet h (first' :: rest')).
Proof. exact lines_order. Qed.
Print Assumptions C104_order.
Example C104_example_order : Permutation lines0 (rev lines0) /\ distinct lines0 /\ lines0 <> rev lines0 /\
  convert_dataport sort_lines typ0 (fun _ => plant) [3%nat] static0 (mkSheet header (described :: lines0)) =
  convert_dataport sort_lines typ0 (fun _ => plant) [3%nat] static0 (mkSheet header (described :: rev lines0)).
Proof.
  assert (P : Permutation lines0 (rev lines0)) by apply Permutation_rev. split; [exact P|]. split; [exact lines0_distinct|]. split; [discriminate|].
  apply C104_order; [exact sort_lines_sorts|exact sort_lines_sorts|exact lines0_distinct|exact P].
Qed.

(** In a file without a line of descriptions, the first building is lost silently. *)
Theorem C104_description_refuted : exists (typ : nat -> nat) fs names h l l',
  complete h /\ eligible l /\ place l "Austin, Texas" /\ l_id l = Some 5 /\ file_rows (fs 0%nat) 5 = [rd] /\ names = [0%nat] /\
  convert_dataport sort_lines typ fs names [] (mkSheet h [l]) = Ok ([], []) /\
  exists t d, convert_dataport sort_lines typ fs names [] (mkSheet h [l'; l]) = Ok (t, d) /\ table t (1%nat, 1%nat) = [(10, Some 4000)] /\ map fst d = ["building1.yaml"%string].
Proof. exact no_description. Qed.
Print Assumptions C104_description_refuted.

(** A building listed twice has its readings and its place twice. *)
Theorem C104_twice_refuted : exists (typ : nat -> nat) fs names h first l t d md,
  complete h /\ eligible l /\ l_id l = Some 5 /\ place l "Austin, Texas" /\ file_rows (fs 0%nat) 5 = [rd] /\ names = [0%nat] /\
  convert_dataport sort_lines typ fs names [] (mkSheet h [first; l; l]) = Ok (t, d) /\
  table t (1%nat, 1%nat) = [(10, Some 4000); (10, Some 4000)] /\ d = [("building1.yaml", Building 5 md "Austin, Austin, Texas, Texas")]%string.
Proof. exact listed_two. Qed.
Print Assumptions C104_twice_refuted.

(** A building without readings in the files, and without a city, stops the conversion of
    the others. *)
Theorem C104_city_refuted : exists (typ : nat -> nat) fs names h first l l',
  complete h /\ distinct [l; l'] /\ numbers [l; l'] /\ l_id l' = Some 9 /\ ~ In 9 (buildings_of (fs 0%nat)) /\ names = [0%nat] /\
  convert_dataport sort_lines typ fs names [] (mkSheet h [first; l; l']) = Err TypeError /\
  exists t d, convert_dataport sort_lines typ fs names [] (mkSheet h [first; l]) = Ok (t, d) /\ table t (1%nat, 1%nat) = [(10, Some 4000)].
Proof. exact no_city. Qed.
Print Assumptions C104_city_refuted.
