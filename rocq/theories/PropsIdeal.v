(** C93: importing the IDEAL and HIPE data sets. *)
From Coq Require Import String Ascii QArith Qabs Sorted Permutation Lia.
From Verif Require Import Base IdealModel IdealSpec IdealProofs IdealProofs2 IdealProofs3.
Import List. Open Scope list_scope. Open Scope nat_scope.

(** IDEAL: the tables are exactly those of the files of electric power of the
    homes with such files in both folders; the two folders may be listed in
    either order. *)
Theorem C93_ideal {V} (sorter : rows V -> rows V) other_int d house rooms :
  layout d house rooms -> tidy house -> tidy rooms -> single house rooms -> sorts sorter ->
  exists s, convert_ideal sorter other_int d = (s, None) /\
    forall h m ac t, get s (h, m) = Some (ac, t) <->
      exists raw, (power_file house h m ac raw \/ power_file rooms h m ac raw) /\ has_power house h /\ has_power rooms h /\ raw <> [] /\ t = sorter (cut raw).
Proof. exact (ideal_ok sorter other_int d house rooms). Qed.
Print Assumptions C93_ideal.

(** The rows of a table are in the order of time, and there is one for each
    reading of the file, at its second. *)
Theorem C93_ideal_rows {V} (sorter : rows V -> rows V) other_int d house rooms s h m ac t :
  layout d house rooms -> tidy house -> tidy rooms -> single house rooms -> sorts sorter ->
  convert_ideal sorter other_int d = (s, None) -> get s (h, m) = Some (ac, t) ->
  StronglySorted Z.le (map fst t) /\
  exists raw, (power_file house h m ac raw \/ power_file rooms h m ac raw) /\
    exists u, Permutation t u /\ Forall2 (fun x r => snd x = snd r /\ (fst x * 1000000000 <= fst r < (fst x + 1) * 1000000000)%Z) u raw.
Proof.
  intros L T0 T1 SG HS E G. destruct (C93_ideal sorter other_int d house rooms L T0 T1 SG HS) as [s' [E' X]].
  rewrite E in E'. injection E' as <-. apply X in G. destruct G as [raw [F [_ [_ [_ ->]]]]]. split; [apply HS|].
  exists raw. split; [exact F|]. exists (cut raw). split; [apply HS|].
  clear. induction raw as [|[x v] raw IH]; constructor; [|exact IH]. cbn [fst snd]. split; [reflexivity|].
  Z.to_euclidean_division_equations; lia.
Qed.
Print Assumptions C93_ideal_rows.

(** One file whose name does not have five parts, of whatever kind, prevents
    the conversion. *)
Theorem C93_ideal_bad_name_refuted {V} (sorter : rows V -> rows V) other_int d house rooms name t : layout d house rooms ->
  In (name, t) house \/ In (name, t) rooms -> (exists mid, name = ("home" ++ mid ++ ".csv.gz")%string) -> count "_" name <> 4 ->
  convert_ideal sorter other_int d = ([], Some ValueError).
Proof. exact (ideal_bad_name sorter other_int d house rooms name t). Qed.
Print Assumptions C93_ideal_bad_name_refuted.

(** So does naming the second folder as documented,
    rooms_appliance_sensensensordata, or in any other way. *)
Theorem C93_ideal_documented_folder_refuted {V} (sorter : rows V -> rows V) other_int (d : listing V) :
  NoDup (map fst d) -> not_nested d -> (forall l, ~ In ("rooms_appliance_sensordata"%string, Dir l) d) ->
  convert_ideal sorter other_int d = ([], Some IndexError).
Proof. exact (ideal_no_rooms sorter other_int d). Qed.
Print Assumptions C93_ideal_documented_folder_refuted.

(** Cases. *)
Lemma numeral_lit l : l <> [] -> Forall (fun d => 0 <= d <= 9)%Z l -> numeral (written l) (fold_left (fun a d => 10 * a + d)%Z l 0%Z).
Proof. intros A B. exists l. now repeat split. Qed.
Lemma sorts_two V : sorts (fun l : rows V => fold_right (fun r acc => (fix ins (x : Z * V) (l : rows V) := match l with [] => [x] | y :: l' => if (fst x <=? fst y)%Z then x :: l else y :: ins x l' end) r acc) [] l).
Proof.
  set (ins := fix ins (x : Z * V) (l : rows V) := match l with [] => [x] | y :: l' => if (fst x <=? fst y)%Z then x :: l else y :: ins x l' end).
  assert (P : forall x l, Permutation (ins x l) (x :: l)).
  { intros x l. induction l as [|y l IH]; [reflexivity|]. cbn [ins]. destruct (fst x <=? fst y)%Z; [reflexivity|].
    rewrite IH. apply perm_swap. }
  assert (K : forall x l, StronglySorted Z.le (map fst l) -> StronglySorted Z.le (map fst (ins x l))).
  { intros x l. induction l as [|y l IH]; intros H; [repeat constructor|]. cbn [map] in H. apply StronglySorted_inv in H. destruct H as [H1 H2].
    cbn [ins]. destruct (Z.leb_spec (fst x) (fst y)); cbn [map].
    - constructor; [constructor; assumption|]. constructor; [assumption|]. rewrite Forall_forall in *. intros z Hz. specialize (H2 z Hz). lia.
    - constructor; [now apply IH|]. rewrite Forall_forall in *. intros z Hz. apply in_map_iff in Hz. destruct Hz as [e [<- He]].
      apply (Permutation_in _ (P x l)) in He. destruct He as [<-|He]; [lia|]. apply H2. now apply in_map. }
  intros l. induction l as [|r l [I1 I2]]; cbn [fold_right]; [repeat constructor|]. split; [|now apply K]. rewrite P. now constructor.
Qed.

Definition mains_name := "home106_hall687_sensor1550c1551_electric-mains_electric-combined.csv.gz"%string.
Definition mains_name' := "home106_hall687_sensor1550_electric-mains_electric-combined.csv.gz"%string.
Definition kettle_name := "home106_kitchen690_sensor7_electric-appliance_kettle.csv.gz"%string.
Definition gas_name := "home106_kitchen690_sensor8_gas-pulse_gas.csv.gz"%string.
Definition alone_name := "home107_hall7_sensor9_electric-mains_electric-combined.csv.gz"%string.
Definition ex_house : listing nat := [(gas_name, File (Err ValueError)); (mains_name, File (Ok [(7000000000%Z, 3); (5500000000%Z, 2); (5000000000%Z, 1)])); (alone_name, File (Ok [(0%Z, 1)]))].
Definition ex_rooms : listing nat := [("readme.txt"%string, File (Err ValueError)); (kettle_name, File (Ok [(1%Z, 4)]))].
Definition ex_root : listing nat := [("rooms_appliance_sensordata"%string, Dir ex_rooms); ("docs"%string, Dir []); ("household_sensordata"%string, Dir ex_house)].

Ltac nodup := repeat (constructor; [cbn; intuition discriminate|]); constructor.
Ltac digits_of l := let H := fresh in assert (H := numeral_lit l); cbn in H; apply H; [discriminate|repeat (constructor; [lia|]); constructor].
Ltac digit d := exists d; split; [lia|reflexivity].
Lemma n_mains : file_name mains_name 106 "1550c1551" "electric-mains".
Proof. exists "106"%string, "hall687"%string, "electric-combined"%string. split; [digits_of [1; 0; 6]%Z|]. split; [cbn; right; right; right; right; left; digit 6%Z|]. repeat split. Qed.
Lemma n_mains' : file_name mains_name' 106 "1550" "electric-mains".
Proof. exists "106"%string, "hall687"%string, "electric-combined"%string. split; [digits_of [1; 0; 6]%Z|]. split; [cbn; right; right; right; right; left; digit 6%Z|]. repeat split. Qed.
Lemma n_kettle : file_name kettle_name 106 "7" "electric-appliance".
Proof. exists "106"%string, "kitchen690"%string, "kettle"%string. split; [digits_of [1; 0; 6]%Z|]. split; [cbn; do 7 right; left; digit 6%Z|]. repeat split. Qed.
Lemma n_gas : file_name gas_name 106 "8" "gas-pulse".
Proof. exists "106"%string, "kitchen690"%string, "gas"%string. split; [digits_of [1; 0; 6]%Z|]. split; [cbn; do 7 right; left; digit 6%Z|]. repeat split. Qed.
Lemma n_alone : file_name alone_name 107 "9" "electric-mains".
Proof. exists "107"%string, "hall7"%string, "electric-combined"%string. split; [digits_of [1; 0; 7]%Z|]. split; [cbn; right; right; right; right; left; digit 7%Z|]. repeat split. Qed.
Lemma m_comb : first_number "1550c1551" 1550.
Proof. exists "1550"%string. split; [digits_of [1; 5; 5; 0]%Z|]. right. exists "1551"%string. reflexivity. Qed.
Lemma m_one : first_number "1550" 1550.
Proof. exists "1550"%string. split; [digits_of [1; 5; 5; 0]%Z|]. now left. Qed.
Lemma m_nine : first_number "9" 9.
Proof. exists "9"%string. split; [digits_of [9]%Z|]. now left. Qed.
Lemma m_seven : numeral "7" 7.
Proof. digits_of [7]%Z. Qed.

Example ex_layout : layout ex_root ex_house ex_rooms.
Proof.
  split; [unfold ex_root; cbn [map fst]; nodup|]. split.
  - intros n l H.
    assert (A : forall x, ~ below (@nil (string * tree nat)) x).
    { intros x B. remember (@nil (string * tree nat)) as e. destruct B as [? ? ? K|? ? ? ? K]; subst; destruct K. }
    assert (NB : forall l' x, (forall n' t, In (n', t) l' -> exists c, t = @File nat c) -> ~ below l' x).
    { intros l' x K B. destruct B as [? ? ? G|? ? ? ? G]; destruct (K _ _ G) as [c [=]]. }
    destruct H as [H|[H|[H|[]]]]; injection H as <- <-; (split; [|]); try apply A; apply NB; unfold ex_rooms, ex_house; intros n' t G; cbn [In] in G;
      intuition (match goal with H : (_, _) = (_, _) |- _ => injection H as <- <- end; eexists; reflexivity).
  - split; [right; right; left; reflexivity|left; reflexivity].
Qed.
Example ex_tidy_house : tidy ex_house.
Proof.
  split; [unfold ex_house; cbn [map fst]; nodup|]. intros name t H _. destruct H as [H|[H|[H|[]]]]; injection H as <- <-.
  - exists 106%Z, "8"%string, "gas-pulse"%string. split; [exact n_gas|]. left. split; discriminate.
  - exists 106%Z, "1550c1551"%string, "electric-mains"%string. split; [exact n_mains|]. right. split; [lia|]. split; [eexists; reflexivity|]. exists 1550%Z. split; [lia|]. left. split; [reflexivity|exact m_comb].
  - exists 107%Z, "9"%string, "electric-mains"%string. split; [exact n_alone|]. right. split; [lia|]. split; [eexists; reflexivity|]. exists 9%Z. split; [lia|]. left. split; [reflexivity|exact m_nine].
Qed.
Example ex_tidy_rooms : tidy ex_rooms.
Proof.
  split; [unfold ex_rooms; cbn [map fst]; nodup|]. intros name t H K. destruct H as [H|[H|[]]]; injection H as <- <-.
  - destruct K as [mid [=]].
  - exists 106%Z, "7"%string, "electric-appliance"%string. split; [exact n_kettle|]. right. split; [lia|]. split; [eexists; reflexivity|]. exists 7%Z. split; [lia|]. right. split; [reflexivity|exact m_seven].
Qed.

Lemma power_files (l : listing nat) h m ac raw : power_file l h m ac raw ->
  exists name sn c, In (name, File (Ok raw)) l /\ file_name name h sn c /\ meter_of sn c m /\ (c = "electric-mains"%string /\ ac = Apparent \/ c = "electric-appliance"%string /\ ac = Active).
Proof. intros [name [sn [c [Hin [F M]]]]]. exists name, sn, c. unfold meter_of. tauto. Qed.
Example ex_single : single ex_house ex_rooms.
Proof.
  intros h m ac raw ac' raw' H H'.
  assert (C : forall h m ac raw, power_file ex_house h m ac raw \/ power_file ex_rooms h m ac raw ->
    h = 106%Z /\ m = 1550%Z /\ ac = Apparent /\ raw = [(7000000000%Z, 3); (5500000000%Z, 2); (5000000000%Z, 1)] \/
    h = 107%Z /\ ac = Apparent /\ raw = [(0%Z, 1)] \/
    h = 106%Z /\ m = 7%Z /\ ac = Active /\ raw = [(1%Z, 4)]).
  { clear. intros h m ac raw [H|H]; apply power_files in H; destruct H as [name [sn [c [Hin [F [M A]]]]]].
    - destruct Hin as [E|[E|[E|[]]]]; [discriminate| |]; injection E as <- <-.
      + destruct (parts_fun _ _ _ _ _ _ _ n_mains F) as [<- [<- <-]]. destruct A as [[_ ->]|[[=] _]]. destruct M as [[_ M]|[[=] _]].
        rewrite (first_number_fun _ _ _ m_comb M). left. repeat split.
      + destruct (parts_fun _ _ _ _ _ _ _ n_alone F) as [<- [<- <-]]. destruct A as [[_ ->]|[[=] _]]. right; left. repeat split.
    - destruct Hin as [E|[E|[]]]; [discriminate|]; injection E as <- <-.
      destruct (parts_fun _ _ _ _ _ _ _ n_kettle F) as [<- [<- <-]]. destruct A as [[[=] _]|[_ ->]]. destruct M as [[[=] _]|[_ M]].
      rewrite (numeral_fun _ _ _ m_seven M). right; right. repeat split. }
  apply C in H, H'. destruct H as [(-> & -> & -> & ->)|[(-> & -> & ->)|(-> & -> & -> & ->)]], H' as [(? & ? & -> & ->)|[(? & -> & ->)|(? & ? & -> & ->)]];
    try lia; repeat split.
Qed.
(** Only home 106 is imported; two of its readings fall into one second. *)
Example C93_ideal_case : exists sorter, sorts sorter /\
  convert_ideal sorter (fun _ => None) ex_root = ([((106%Z, 7%Z), (Active, [(0%Z, 4)])); ((106%Z, 1550%Z), (Apparent, [(5%Z, 2); (5%Z, 1); (7%Z, 3)]))], None).
Proof. eexists. split; [exact (sorts_two nat)|]. vm_compute. reflexivity. Qed.

(** It is not so that the times of a table are distinct: readings within one
    second keep their rows. *)
Theorem C93_ideal_times_refuted : exists (d house rooms : listing nat),
  layout d house rooms /\ tidy house /\ tidy rooms /\ single house rooms /\
  forall sorter other_int, sorts sorter -> exists s ac t, convert_ideal sorter other_int d = (s, None) /\ get s (106%Z, 1550%Z) = Some (ac, t) /\ ~ NoDup (map fst t).
Proof.
  exists ex_root, ex_house, ex_rooms. split; [exact ex_layout|]. split; [exact ex_tidy_house|]. split; [exact ex_tidy_rooms|]. split; [exact ex_single|].
  intros sorter oi HS. destruct (ideal_ok sorter oi ex_root ex_house ex_rooms ex_layout ex_tidy_house ex_tidy_rooms ex_single HS) as [s [E X]].
  exists s, Apparent, (sorter (cut [(7000000000%Z, 3); (5500000000%Z, 2); (5000000000%Z, 1)])). split; [exact E|].
  assert (P : power_file ex_house 106 1550 Apparent [(7000000000%Z, 3); (5500000000%Z, 2); (5000000000%Z, 1)]).
  { exists mains_name, "1550c1551"%string, "electric-mains"%string. split; [right; now left|]. split; [exact n_mains|]. left. split; [reflexivity|]. split; [reflexivity|exact m_comb]. }
  assert (Q : power_file ex_rooms 106 7 Active [(1%Z, 4)]).
  { exists kettle_name, "7"%string, "electric-appliance"%string. split; [right; now left|]. split; [exact n_kettle|]. right. split; [reflexivity|]. split; [reflexivity|exact m_seven]. }
  split.
  - apply X. eexists. split; [left; exact P|]. split; [do 3 eexists; exact P|]. split; [do 3 eexists; exact Q|]. split; [discriminate|reflexivity].
  - intros N. destruct (HS (cut [(7000000000%Z, 3); (5500000000%Z, 2); (5000000000%Z, 1)])) as [Pm _].
    apply (Permutation_NoDup (Permutation_map fst Pm)) in N. vm_compute in N. inversion N as [|? ? _ N']. inversion N' as [|? ? K _]. apply K. now left.
Qed.
Print Assumptions C93_ideal_times_refuted.

(** Nor that every file of electric power is stored: a combined sensor and a
    sensor of its first number share a meter, and only one is kept. *)
Definition lost_house : listing nat := [(mains_name, File (Ok [(7000000000%Z, 3)])); (mains_name', File (Ok [(8000000000%Z, 5)]))].
Definition lost_root : listing nat := [("household_sensordata"%string, Dir lost_house); ("rooms_appliance_sensordata"%string, Dir ex_rooms)].
Theorem C93_ideal_lost_refuted (sorter : rows nat -> rows nat) other_int : sorts sorter ->
  exists s, convert_ideal sorter other_int lost_root = (s, None) /\
    power_file lost_house 106 1550 Apparent [(7000000000%Z, 3)] /\ power_file lost_house 106 1550 Apparent [(8000000000%Z, 5)] /\
    has_power ex_rooms 106 /\ forall k ac t, get s k = Some (ac, t) -> ~ In (7%Z, 3) t.
Proof.
  intros HS. assert (O : forall r : Z * nat, sorter [r] = [r]).
  { intros r. destruct (HS [r]) as [P _]. apply Permutation_sym, Permutation_length_1_inv in P. exact P. }
  exists [((106%Z, 1550%Z), (Apparent, sorter [(8%Z, 5)])); ((106%Z, 7%Z), (Active, sorter [(0%Z, 4)]))].
  split.
  - assert (F : filter wanted (walk lost_root) = ["household_sensordata"; "rooms_appliance_sensordata"]%string) by reflexivity.
    unfold convert_ideal. rewrite F. assert (B : both_homes lost_root ["household_sensordata"; "rooms_appliance_sensordata"]%string = Ok [106; 106]%Z) by reflexivity.
    rewrite B. cbn [ideal_folders]. unfold ideal_folder.
    change (folder_of lost_root "household_sensordata") with (Some lost_house). change (folder_of lost_root "rooms_appliance_sensordata") with (Some ex_rooms).
    cbv iota. change (find_all lost_house [106; 106]%Z) with (Ok [mkFound mains_name 106 "1550c1551" "electric-mains"; mkFound mains_name' 106 "1550" "electric-mains"]).
    change (find_all ex_rooms [106; 106]%Z) with (Ok [mkFound kettle_name 106 "7" "electric-appliance"]). cbv iota.
    cbn [write_all].
    change (ideal_file sorter other_int lost_house (mkFound mains_name 106 "1550c1551" "electric-mains")) with (Ok ((106%Z, 1550%Z), (Apparent, sorter [(7%Z, 3)]))).
    change (ideal_file sorter other_int lost_house (mkFound mains_name' 106 "1550" "electric-mains")) with (Ok ((106%Z, 1550%Z), (Apparent, sorter [(8%Z, 5)]))).
    change (ideal_file sorter other_int ex_rooms (mkFound kettle_name 106 "7" "electric-appliance")) with (Ok ((106%Z, 7%Z), (Active, sorter [(0%Z, 4)]))).
    cbv iota. rewrite !O. reflexivity.
  - split; [exists mains_name, "1550c1551"%string, "electric-mains"%string; split; [now left|]; split; [exact n_mains|]; left; split; [reflexivity|]; split; [reflexivity|exact m_comb]|].
    split; [exists mains_name', "1550"%string, "electric-mains"%string; split; [right; now left|]; split; [exact n_mains'|]; left; split; [reflexivity|]; split; [reflexivity|exact m_one]|].
    split; [exists 7%Z, Active, [(1%Z, 4)], kettle_name, "7"%string, "electric-appliance"%string; split; [right; now left|]; split; [exact n_kettle|]; right; split; [reflexivity|]; split; [reflexivity|exact m_seven]|].
    intros k ac t. rewrite !O. cbn [get]. destruct (key_eqb k (106%Z, 1550%Z)); [intros [= <- <-] [K|[]]; discriminate|].
    destruct (key_eqb k (106%Z, 7%Z)); [intros [= <- <-] [K|[]]; discriminate|discriminate].
Qed.
Print Assumptions C93_ideal_lost_refuted.

Example C93_ideal_bad_name_case (sorter : rows nat -> rows nat) : 
  convert_ideal sorter (fun _ => None) [("rooms_appliance_sensordata"%string, Dir ex_rooms); ("household_sensordata"%string, Dir (("home1_gas_meter_reading_by_hand_x.csv.gz"%string, File (Ok [])) :: ex_house))] = ([], Some ValueError).
Proof. reflexivity. Qed.
Example C93_ideal_documented_folder_case (sorter : rows nat -> rows nat) : 
  convert_ideal sorter (fun _ => None) [("household_sensordata"%string, Dir ex_house); ("rooms_appliance_sensensensordata"%string, Dir ex_rooms)] = ([], Some IndexError).
Proof. reflexivity. Qed.

(** HIPE: meter [m] of building 1 is the first file of machine [m], in W, in
    the order of time. *)
Theorem C93_hipe sorter d : NoDup (map fst d) -> sorts sorter ->
  (forall m n, machine m n -> exists f raw, first_csv d n f /\ In (f, File (Ok raw)) d) ->
  exists s, convert_hipe sorter d = (s, None) /\
    forall b m ac t, get s (b, m) = Some (ac, t) <->
      b = 1%Z /\ ac = (if Z.eq_dec m 1 then Apparent else Active) /\
      exists n f raw, machine m n /\ first_csv d n f /\ In (f, File (Ok raw)) d /\ raw <> [] /\ t = in_watts (sorter raw).
Proof. exact (hipe_ok sorter d). Qed.
Print Assumptions C93_hipe.

(** Without a file of one of the machines nothing is imported. *)
Theorem C93_hipe_missing sorter d m n : machine m n -> (forall f t, In (f, t) d -> ~ csv_of n f) -> convert_hipe sorter d = ([], Some IndexError).
Proof. exact (hipe_missing sorter d m n). Qed.
Print Assumptions C93_hipe_missing.

(** It is not so that the sum of the readings is kept: with a negative reading
    (power fed into the grid) the table has a larger one. *)
Theorem C93_hipe_feed_in_refuted sorter d s m n f raw : NoDup (map fst d) -> sorts sorter ->
  (forall m n, machine m n -> exists f raw, first_csv d n f /\ In (f, File (Ok raw)) d) ->
  convert_hipe sorter d = (s, None) -> machine m n -> first_csv d n f -> In (f, File (Ok raw)) d ->
  (exists x q, In (x, Some q) raw /\ (q < 0)%Q) ->
  exists ac t, get s (1%Z, m) = Some (ac, t) /\ (1000 * total raw < total t)%Q.
Proof.
  intros ND HS H E Hm F Hin Neg. destruct (hipe_ok sorter d ND HS H) as [s' [E' X]]. rewrite E in E'. injection E' as <-.
  exists (if Z.eq_dec m 1 then Apparent else Active), (in_watts (sorter raw)). split; [|exact (feed_in sorter raw HS Neg)].
  apply X. split; [reflexivity|]. split; [reflexivity|]. exists n, f, raw. split; [exact Hm|]. split; [exact F|]. split; [exact Hin|].
  split; [|reflexivity]. destruct Neg as [x [q [K _]]]. intros ->. destruct K.
Qed.
Print Assumptions C93_hipe_feed_in_refuted.

Definition hipe_ex : listing (option Q) :=
  map (fun n => ((n ++ "_week.csv")%string, File (Ok [(3%Z, Some (-1 # 2)); (1%Z, None)]))) machine_names ++
  [("ChipSaw_three_months.csv"%string, File (Ok [(9%Z, Some (7 # 1))])); ("readme.txt"%string, File (Err ValueError))].
Example C93_hipe_case_names : NoDup (map fst hipe_ex).
Proof. unfold hipe_ex. cbn. repeat (constructor; [cbn; intuition discriminate|]). constructor. Qed.
Example C93_hipe_case : forall m n, machine m n -> exists f raw, first_csv hipe_ex n f /\ In (f, File (Ok raw)) hipe_ex.
Proof.
  intros m n H. apply machines_iff in H. cbn [machines In] in H.
  repeat (destruct H as [H|H]; [injection H as <- <-; eexists; eexists; split; [apply first_iff; eexists; vm_compute; reflexivity|cbn; tauto]|]). destruct H.
Qed.
Example C93_hipe_case_result : exists sorter, sorts sorter /\ 
  get (fst (convert_hipe sorter hipe_ex)) (1%Z, 3%Z) = Some (Active, [(1%Z, None); (3%Z, Some (1000 # 2))]) /\
  get (fst (convert_hipe sorter hipe_ex)) (1%Z, 12%Z) = None.
Proof. eexists. split; [exact (sorts_two (option Q))|]. split; vm_compute; reflexivity. Qed.
Example C93_hipe_missing_case sorter : convert_hipe sorter (tl hipe_ex) = ([], Some IndexError).
Proof. reflexivity. Qed.

(** Nor that all files of a machine are imported: of two, one is. *)
Theorem C93_hipe_second_refuted sorter : sorts sorter -> exists d s f raw t, NoDup (map fst d) /\
  convert_hipe sorter d = (s, None) /\ csv_of "ChipSaw" f /\ In (f, File (Ok raw)) d /\ In t raw /\
  forall k ac l, get s k = Some (ac, l) -> ~ In (fst t) (map fst l).
Proof.
  intros HS. destruct (hipe_ok sorter hipe_ex C93_hipe_case_names HS C93_hipe_case) as [s [E X]].
  exists hipe_ex, s, "ChipSaw_three_months.csv"%string, [(9%Z, Some (7 # 1))], (9%Z, Some (7 # 1)).
  split; [exact C93_hipe_case_names|]. split; [exact E|]. split; [exists "_three_months"%string; reflexivity|]. split; [cbn; tauto|]. split; [now left|].
  intros [b m] ac l G. apply X in G. destruct G as [_ [_ [n [f [raw [Hm [F [Hin [_ ->]]]]]]]]]. cbn [fst]. intros K.
  unfold in_watts in K. rewrite map_map in K. cbn [fst] in K. apply in_map_iff in K. destruct K as [[x v] [Ex K]]. cbn [fst] in Ex. subst x.
  apply (Permutation_in _ (proj1 (HS raw))) in K.
  assert (Q : f = "ChipSaw_three_months.csv"%string).
  { cbn in Hin. repeat (destruct Hin as [Hin|Hin]; [first [discriminate Hin|injection Hin as <- <-; first [reflexivity|destruct K as [K|[K|[]]]; discriminate]]|]). destruct Hin. }
  subst f. apply machines_iff in Hm. cbn [machines In] in Hm. apply first_iff in F. destruct F as [r F].
  repeat (destruct Hm as [Hm|Hm]; [injection Hm as <- <-; vm_compute in F; discriminate|]). destruct Hm.
Qed.
Print Assumptions C93_hipe_second_refuted.
