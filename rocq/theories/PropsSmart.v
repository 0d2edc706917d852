(** C98: importing the SMART data set. *)
From Coq Require Import String.
From Verif Require Import Base SmartModel SmartSpec SmartProofs SmartProofs2.
Import List. Open Scope list_scope. Open Scope nat_scope.

(** When every home has half-hourly data, with times and mains in the first file of each year
    and no meter twice in a year, building b holds the meters of home b and nothing else is
    stored: meter 1 the mains, then the others in the order in which they appear; the readings
    of all years follow each other in the order of the directories, each with the time in the
    row of the same number of the year's first file, those of years without the meter missing.
    Missing: units, times of the other files and of the local clock, order (false, see below). *)
Theorem C98_import_partial : forall V (stamp : V -> res Z) time home ya yb yc ta tb tc,
  home "A"%string = Ok ya -> home "B"%string = Ok yb -> home "C"%string = Ok yc ->
  good_home stamp time ya ta -> good_home stamp time yb tb -> good_home stamp time yc tc ->
  exists s, convert_smart stamp home = Ok s /\
    (forall m, get s 1 m = meter_rows time ta m) /\ (forall m, get s 2 m = meter_rows time tb m) /\ (forall m, get s 3 m = meter_rows time tc m) /\
    (forall b m, b = 0 \/ 4 <= b -> get s b m = None).
Proof.
  intros V stamp time home ya yb yc ta tb tc Ha Hb Hc Ga Gb Gc.
  destruct (homes_converted stamp time home ["A"; "B"; "C"]%string [ta; tb; tc]) with (b := 1) (date := @None (list (option V))) as (s & E & G).
  - constructor; [exists ya; auto|]. constructor; [exists yb; auto|]. constructor; [exists yc; auto|constructor].
  - exists s. split; [exact E|]. split; [intros m; apply (G 1 m)|]. split; [intros m; apply (G 2 m)|]. split; [intros m; apply (G 3 m)|].
    intros b m H. rewrite G. destruct (Nat.leb_spec 1 b) as [L|L]; [|reflexivity]. destruct H as [->|H]; [lia|]. replace (b - 1) with (S (S (S (b - 4)))) by lia. destruct (b - 4); reflexivity.
Qed.
Print Assumptions C98_import_partial.

(** One home without half-hourly data, and the whole import ends with a KeyError. *)
Theorem C98_empty_home : forall V (stamp : V -> res Z) time home,
  (forall h, In h ["A"; "B"; "C"]%string -> exists ys tss, home h = Ok ys /\ (good_home stamp time ys tss \/ empty_home ys)) ->
  (exists h ys, In h ["A"; "B"; "C"]%string /\ home h = Ok ys /\ empty_home ys) ->
  convert_smart stamp home = Err KeyError.
Proof. intros V stamp time home H1 H2. exact (homes_fail stamp time home _ 1 None H1 H2). Qed.
Print Assumptions C98_empty_home.

(** ** Examples *)

Definition some (l : list Z) : list (option Z) := map Some l.
Definition table (n : nat) (l : list (string * list Z)) : frame Z := mkFrame n (map (fun c => (fst c, some (snd c))) l).
Definition txt (name : string) : list string := [name; "sample period: 30 minutes"; "end"]%string.
Definition files (l : list (string * frame Z)) (n : string) : res (frame Z) :=
  match find (fun e => String.eqb n (fst e)) l with Some e => Ok (snd e) | None => Err GenericException end.
Definition clock (v : Z) : res Z := Ok v.

Definition y14 : year Z := mkYear "2014" [txt "meter1"; ["meter9"; "sample period: 1 minute"; "end"]%string; txt "meter2"]
  (files [("meter1_2014.csv"%string, table 2 [("Date & Time"%string, [0; 1800]); ("use [kW]"%string, [5; 6]); ("gen [kW]"%string, [0; 0]); ("Fridge [kW]"%string, [1; 2])]%Z);
          ("meter2_2014.csv"%string, table 2 [("Date & Time"%string, [0; 1800]); ("Oven [kW]"%string, [3; 4])]%Z)]).
Definition y15 : year Z := mkYear "2015" [txt "meter1"]
  (files [("meter1_2015.csv"%string, table 2 [("Date & Time"%string, [9000; 10800]); ("Usage [kW]"%string, [7; 8]); ("Heater [kW]"%string, [9; 10])]%Z)]).
Definition one_home (ys : list (year Z)) (h : string) : res (list (year Z)) := if String.eqb h "A" then Ok ys else Ok [y15].
Definition t14 : list (frame Z) :=
  [table 2 [("Date & Time"%string, [0; 1800]); ("use [kW]"%string, [5; 6]); ("gen [kW]"%string, [0; 0]); ("Fridge [kW]"%string, [1; 2])]%Z;
   table 2 [("Date & Time"%string, [0; 1800]); ("Oven [kW]"%string, [3; 4])]%Z].
Definition t15 : list (frame Z) := [table 2 [("Date & Time"%string, [9000; 10800]); ("Usage [kW]"%string, [7; 8]); ("Heater [kW]"%string, [9; 10])]%Z].

Lemma y14_tables : year_tables y14 t14.
Proof.
  unfold year_tables. apply (half_hourly _ "meter1" _ "sample period: 30 minutes" "end"); [exists ["meter1"%string]; reflexivity|apply contains_iff; reflexivity|reflexivity|].
  apply (other_period _ _ "sample period: 1 minute" "end"); [exists ["meter9"%string]; reflexivity|rewrite <- contains_iff; discriminate|].
  apply (half_hourly _ "meter2" _ "sample period: 30 minutes" "end"); [exists ["meter2"%string]; reflexivity|apply contains_iff; reflexivity|reflexivity|]. constructor.
Qed.
Lemma y15_tables : year_tables y15 t15.
Proof.
  unfold year_tables. apply (half_hourly _ "meter1" _ "sample period: 30 minutes" "end"); [exists ["meter1"%string]; reflexivity|apply contains_iff; reflexivity|reflexivity|]. constructor.
Qed.
Lemma nodup_names l : distinct l = true -> NoDup l.
Proof. apply distinct_iff. Qed.
Lemma wf14 : well_formed t14.
Proof. split; [repeat constructor|]. split; [discriminate|]. split; [discriminate|]. apply nodup_names. vm_compute. reflexivity. Qed.
Lemma wf15 : well_formed t15.
Proof. split; [repeat constructor|]. split; [discriminate|]. split; [discriminate|]. apply nodup_names. vm_compute. reflexivity. Qed.
Lemma clock_readable tss : readable_times clock (fun v => v) tss.
Proof. intros t ts c v _ _ _. reflexivity. Qed.

Example C98_met : good_home clock (fun v => v) [y14; y15] [t14; t15] /\ good_home clock (fun v => v) [y15] [t15] /\
  meters_of [t14; t15] = ["use"; "Fridge [kW]"; "Oven [kW]"; "Heater [kW]"]%string /\
  meter_rows (fun v => v) [t14; t15] 3 = Some [(Some 0, Some 3); (Some 1800, Some 4); (Some 9000, None); (Some 10800, None)]%Z /\
  meter_rows (fun v => v) [t14; t15] 5 = None.
Proof.
  split.
  - split; [constructor; [exact y14_tables|constructor; [exact y15_tables|constructor]]|]. split; [constructor; [exact wf14|constructor; [exact wf15|constructor]]|].
    split; [left; discriminate|apply clock_readable].
  - split; [split; [constructor; [exact y15_tables|constructor]|split; [constructor; [exact wf15|constructor]|split; [left; discriminate|apply clock_readable]]]|].
    split; [vm_compute; reflexivity|]. split; vm_compute; reflexivity.
Qed.
Example C98_stored : exists s, convert_smart clock (one_home [y14; y15]) = Ok s /\
  get s 1 1 = Some [(Some 0, Some 5); (Some 1800, Some 6); (Some 9000, Some 7); (Some 10800, Some 8)]%Z /\
  get s 1 4 = Some [(Some 0, None); (Some 1800, None); (Some 9000, Some 9); (Some 10800, Some 10)]%Z /\ get s 3 2 = Some [(Some 9000, Some 9); (Some 10800, Some 10)]%Z /\ get s 1 5 = None.
Proof. eexists. split; [vm_compute; reflexivity|]. repeat split. Qed.

Definition minutely : year Z := mkYear "2014" [["meter9"; "sample period: 1 minute"; "end"]%string] (files []).
Example C98_empty_met : empty_home [minutely] /\ convert_smart clock (one_home [minutely]) = Err KeyError.
Proof.
  split; [|vm_compute; reflexivity]. constructor; [|constructor]. unfold year_tables. apply (other_period _ _ "sample period: 1 minute" "end"); [exists ["meter9"%string]; reflexivity| |constructor].
  rewrite <- contains_iff. discriminate.
Qed.

(** ** What goes wrong *)

(** The readings are in kilowatts and are stored as they are, as power in watts: 7 kW is stored
    as 7 instead of 7000. *)
Theorem C98_units_refuted : exists s, convert_smart clock (one_home [y15]) = Ok s /\ good_home clock (fun v => v) [y15] [t15] /\
  y_csv y15 "meter1_2015.csv" = Ok (table 2 [("Date & Time"%string, [9000; 10800]); ("Usage [kW]"%string, [7; 8]); ("Heater [kW]"%string, [9; 10])]%Z) /\
  get s 1 1 = Some [(Some 9000, Some 7); (Some 10800, Some 8)]%Z /\ 7%Z <> (1000 * 7)%Z.
Proof. eexists. split; [vm_compute; reflexivity|]. split; [apply C98_met|]. split; [reflexivity|]. split; [reflexivity|discriminate]. Qed.
Print Assumptions C98_units_refuted.

(** The second file of a year has readings of other times, and more of them: its readings get
    the times of the first file, and the last one is lost. *)
Definition shifted : year Z := mkYear "2014" [txt "meter1"; txt "meter2"]
  (files [("meter1_2014.csv"%string, table 2 [("Date & Time"%string, [0; 1800]); ("use [kW]"%string, [5; 6])]%Z);
          ("meter2_2014.csv"%string, table 3 [("Date & Time"%string, [1800; 3600; 5400]); ("Oven [kW]"%string, [3; 4; 5])]%Z)]).
Theorem C98_times_refuted : exists s, convert_smart clock (one_home [shifted]) = Ok s /\
  y_csv shifted "meter2_2014.csv" = Ok (table 3 [("Date & Time"%string, [1800; 3600; 5400]); ("Oven [kW]"%string, [3; 4; 5])]%Z) /\
  get s 1 2 = Some [(Some 0, Some 3); (Some 1800, Some 4)]%Z.
Proof. eexists. split; [vm_compute; reflexivity|]. split; reflexivity. Qed.
Print Assumptions C98_times_refuted.

(** The years are stored in the order in which the operating system lists them: the times of
    the table need not increase. *)
Theorem C98_order_refuted : exists home s rows, (forall h, In h ["A"; "B"; "C"]%string -> exists ys tss, home h = Ok ys /\ good_home clock (fun v => v) ys tss) /\
  convert_smart clock home = Ok s /\ get s 1 1 = Some rows /\ map fst rows = [Some 9000; Some 10800; Some 0; Some 1800]%Z.
Proof.
  exists (one_home [y15; y14]). eexists. eexists. split.
  - intros h H. assert (G : exists ys tss, one_home [y15; y14] h = Ok ys /\ (ys = [y15; y14] /\ tss = [t15; t14] \/ ys = [y15] /\ tss = [t15])).
    { unfold one_home. destruct (String.eqb h "A"); [exists [y15; y14], [t15; t14]; auto|exists [y15], [t15]; auto]. }
    destruct G as (ys & tss & E & [(-> & ->)|(-> & ->)]).
    + exists [y15; y14], [t15; t14]. split; [exact E|]. split; [constructor; [exact y15_tables|constructor; [exact y14_tables|constructor]]|]. split; [constructor; [exact wf15|constructor; [exact wf14|constructor]]|].
      split; [left; discriminate|apply clock_readable].
    + exists [y15], [t15]. split; [exact E|]. apply C98_met.
  - split; [vm_compute; reflexivity|]. split; reflexivity.
Qed.
Print Assumptions C98_order_refuted.

(** A year whose first file has no times gets those of the year before. *)
Definition timeless : year Z := mkYear "2015" [txt "meter1"] (files [("meter1_2015.csv"%string, table 2 [("Usage [kW]"%string, [7; 8])]%Z)]).
Theorem C98_stale_times_refuted : exists s, convert_smart clock (one_home [y14; timeless]) = Ok s /\
  get s 1 1 = Some [(Some 0, Some 5); (Some 1800, Some 6); (Some 0, Some 7); (Some 1800, Some 8)]%Z.
Proof. eexists. split; [vm_compute; reflexivity|]. reflexivity. Qed.
Print Assumptions C98_stale_times_refuted.

(** A text file of fewer than two lines ends the import. *)
Theorem C98_short_file : forall V (stamp : V -> res Z) home y ys pre short post, home "A"%string = Ok (y :: ys) -> y_txt y = pre ++ short :: post ->
  Forall (fun l => 2 <= length l) pre -> length short < 2 -> convert_smart stamp home = Err IndexError.
Proof. exact @short_file. Qed.
Print Assumptions C98_short_file.

Example C98_ex_short : convert_smart clock (one_home [mkYear "2014" [txt "meter1"; ["meter2"%string]] (fun _ => Err KeyError)]) = Err IndexError.
Proof. reflexivity. Qed.
