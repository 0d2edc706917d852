(** Vocabulary for importing the IDEAL and HIPE data sets. *)
From Coq Require Import String Ascii QArith Qabs Sorted Permutation.
From Verif Require Import Base IdealModel.
Import List. Open Scope list_scope. Open Scope nat_scope.

(** Decimal numerals. *)
Fixpoint written (l : list Z) : string :=
  match l with [] => EmptyString | d :: r => String (ascii_of_nat (48 + Z.to_nat d)) (written r) end.
Definition numeral (s : string) (n : Z) : Prop :=
  exists l, l <> [] /\ Forall (fun d => 0 <= d <= 9)%Z l /\ s = written l /\ n = fold_left (fun a d => 10 * a + d)%Z l 0%Z.

(** How often [c] occurs in [s]. *)
Fixpoint count (c : ascii) (s : string) : nat :=
  match s with EmptyString => 0 | String a r => (if ascii_dec a c then 1 else 0) + count c r end.
Fixpoint has_digit (s : string) : Prop :=
  match s with EmptyString => False | String a r => (exists d, (0 <= d <= 9)%Z /\ a = ascii_of_nat (48 + Z.to_nat d)) \/ has_digit r end.

(** home<h>_<room>_sensor<sensor>_<category>_<subtype>.csv.gz *)
Definition file_name (name : string) (h : Z) (sensor category : string) : Prop :=
  exists home room subtype,
    numeral home h /\ has_digit room /\
    count "_" room = 0 /\ count "_" sensor = 0 /\ count "_" category = 0 /\ count "_" subtype = 0 /\
    name = ("home" ++ home ++ "_" ++ room ++ "_" ++ "sensor" ++ sensor ++ "_" ++ category ++ "_" ++ subtype ++ ".csv.gz")%string.

(** A sensor of the mains may combine two, as in 1550c1551. *)
Definition first_number (sensor : string) (m : Z) : Prop :=
  exists p, numeral p m /\ (sensor = p \/ exists r, sensor = (p ++ "c" ++ r)%string).

Section Ideal.
  Context {V : Type}.
  Implicit Types d l : listing V.

  (** [raw] are the readings of a file of electric power of meter [m] of
      home [h]. *)
  Definition power_file l (h m : Z) (ac : actype) (raw : rows V) : Prop :=
    exists name sensor category, In (name, File (Ok raw)) l /\ file_name name h sensor category /\
      (category = "electric-mains"%string /\ ac = Apparent /\ first_number sensor m \/
       category = "electric-appliance"%string /\ ac = Active /\ numeral sensor m).

  (** Every file of a home is named as it should be, and those of electric
      power can be read. *)
  Definition tidy l : Prop :=
    NoDup (map fst l) /\
    forall name t, In (name, t) l -> (exists mid, name = ("home" ++ mid ++ ".csv.gz")%string) ->
      exists h sensor category, file_name name h sensor category /\
        (category <> "electric-mains"%string /\ category <> "electric-appliance"%string \/
         (1 <= h)%Z /\ (exists raw, t = File (Ok raw)) /\ exists m, (1 <= m)%Z /\
         (category = "electric-mains"%string /\ first_number sensor m \/ category = "electric-appliance"%string /\ numeral sensor m)).

  (** There is a folder [n] somewhere in [l]. *)
  Inductive below : listing V -> string -> Prop :=
  | below_here n l' l : In (n, Dir l') l -> below l n
  | below_deeper m l' l n : In (m, Dir l') l -> below l' n -> below l n.

  (** The two folders, and no others with their names further down. *)
  Definition not_nested d : Prop :=
    forall n l, In (n, Dir l) d -> ~ below l "household_sensordata" /\ ~ below l "rooms_appliance_sensordata".
  Definition layout d house rooms : Prop :=
    NoDup (map fst d) /\ not_nested d /\
    In ("household_sensordata"%string, Dir house) d /\ In ("rooms_appliance_sensordata"%string, Dir rooms) d.

  Definition has_power l (h : Z) : Prop := exists m ac raw, power_file l h m ac raw.
  (** One file for each meter. *)
  Definition single house rooms : Prop :=
    forall h m ac raw ac' raw', power_file house h m ac raw \/ power_file rooms h m ac raw ->
      power_file house h m ac' raw' \/ power_file rooms h m ac' raw' -> ac = ac' /\ raw = raw'.

  (** Times in whole seconds. *)
  Definition cut (raw : rows V) : rows V := map (fun r => (fst r / 1000000000, snd r))%Z raw.
  Definition sorts (sorter : rows V -> rows V) : Prop :=
    forall r, Permutation (sorter r) r /\ StronglySorted Z.le (map fst (sorter r)).
End Ideal.

(** The machines of the HIPE data set. *)
Definition machine_names : list string :=
  ["MainTerminal"; "ChipPress"; "ChipSaw"; "HighTemperatureOven"; "PickAndPlaceUnit"; "ScreenPrinter";
   "SolderingOven"; "VacuumOven"; "VacuumPump1"; "VacuumPump2"; "WashingMachine"]%string.
Definition machine (m : Z) (name : string) : Prop :=
  (1 <= m)%Z /\ nth_error machine_names (Z.to_nat (m - 1)) = Some name.

(** <machine>*.csv *)
Definition csv_of (name file : string) : Prop := exists mid, file = (name ++ mid ++ ".csv")%string.
(** The first file of a machine. *)
Definition first_csv (d : listing (option Q)) (name file : string) : Prop :=
  exists before after, map fst d = before ++ file :: after /\ csv_of name file /\ forall f, In f before -> ~ csv_of name f.

(** Readings in W from readings in kW. *)
Definition in_watts (raw : rows (option Q)) : rows (option Q) :=
  map (fun r => (fst r, option_map (fun q => Qabs (q * 1000)) (snd r))) raw.

(** Sum of readings. *)
Fixpoint total (l : rows (option Q)) : Q :=
  match l with [] => 0 | (_, v) :: r => (match v with Some q => q | None => 0 end + total r)%Q end.
