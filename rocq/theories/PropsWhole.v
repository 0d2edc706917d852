(** C82: statistics of a whole meter, no period named. *)
From Coq Require Import QArith.
From Verif Require Import Base TimeFrameModel TimeFrameSpec StoreModel StoreSpec StoreProofs ResultsModel ResultsSpec GoodSectionsModel GoodSectionsSpec
  EnergyModel EnergySpec EnergyProofs2 WholeModel WholeSpec WholeProofs.
Open Scope Z_scope.

Definition anytime : tf := mkTF None None true false false.
Definition until (b : Z) : tf := mkTF None (Some b) true false false.
Definition from_ (a : Z) : tf := mkTF (Some a) None true false false.
Definition power_column : list column := [(Power, Some Active)].
Definition power_rows : list (sample (list (option Z))) :=
  [(0, [Some 5]); (10, [Some 6]); (20, [Some 7]); (100, [Some 8]); (110, [Some 9])].

(** [total_energy()] is the energy of the readings within the window, both ends
    included, whatever the chunk size; the AC type is absent if there are fewer
    than two. *)
Theorem C82_energy : forall columns msp a k rows window m s e csize,
  0 <= msp -> uses_column columns a Power k -> increasing rows -> (1 <= csize)%nat ->
  rows_within window rows m -> (2 <= length m)%nat -> readings k m s -> is_energy msp s e ->
  whole_energy columns msp a rows window csize = Ok (Some e).
Proof. exact energy_whole. Qed.
Print Assumptions C82_energy.
Theorem C82_energy_few : forall columns msp a rows window m csize, increasing rows -> (2 <= length rows)%nat -> (1 <= csize)%nat ->
  rows_within window rows m -> (length m < 2)%nat -> whole_energy columns msp a rows window csize = Ok None.
Proof. exact energy_few. Qed.
Print Assumptions C82_energy_few.
Example C82_energy_ex : uses_column power_column Active Power 0 /\ increasing power_rows /\
  rows_within (until 20) power_rows (firstn 3 power_rows) /\ readings 0 (firstn 3 power_rows) [(0, 5); (10, 6); (20, 7)] /\
  whole_energy power_column 10 Active power_rows (until 20) 2 = Ok (Some 110) /\
  whole_energy power_column 10 Active power_rows (until 5) 2 = Ok None /\
  whole_energy power_column 10 Active power_rows anytime 2 = Ok (Some 260).
Proof.
  split; [split; [reflexivity|]; split; [constructor; [intros []|constructor]|]; right; right; split; [reflexivity|]; split; intros [H|[]]; discriminate|].
  split; [cbn; lia|]. split.
  - unfold rows_within, power_rows. cbn [firstn].
    do 3 (apply filt_keep; [split; [reflexivity|split; [discriminate|intros e [= <-]; cbn; lia]]|]).
    do 2 (apply filt_drop; [intros (_ & _ & K); specialize (K 20 eq_refl); cbn in K; lia|]). constructor.
  - split; [repeat constructor|]. repeat split; vm_compute; reflexivity.
Qed.

(** Two windows that meet at [b]: together at most the energy of both at once,
    exactly that if a reading was taken at [b]. *)
Theorem C82_split : forall columns msp a k rows lo b hi w1 w2 w c1 c2 c3,
  0 <= msp -> uses_column columns a Power k -> increasing rows -> (2 <= length rows)%nat ->
  Forall (has_reading k) rows -> Forall (fun r => forall v, nth k (snd r) None = Some v -> 0 <= v) rows ->
  window_of lo (Some b) w1 -> window_of (Some b) hi w2 -> window_of lo hi w ->
  (forall x, lo = Some x -> x <= b) -> (forall x, hi = Some x -> b <= x) ->
  (1 <= c1)%nat -> (1 <= c2)%nat -> (1 <= c3)%nat ->
  exists o1 o2 o, whole_energy columns msp a rows w1 c1 = Ok o1 /\ whole_energy columns msp a rows w2 c2 = Ok o2 /\
    whole_energy columns msp a rows w c3 = Ok o /\ energy_value o1 + energy_value o2 <= energy_value o /\
    (In b (map fst rows) -> energy_value o1 + energy_value o2 = energy_value o).
Proof. exact energy_split. Qed.
Print Assumptions C82_split.
Example C82_split_ex : window_of None (Some 20) (until 20) /\ window_of (Some 20) None (from_ 20) /\ window_of None None anytime /\
  Forall (has_reading 0) power_rows /\ In 20 (map fst power_rows) /\
  whole_energy power_column 10 Active power_rows (from_ 20) 2 = Ok (Some 150) /\
  whole_energy power_column 10 Active power_rows (until 15) 2 = Ok (Some 50) /\ whole_energy power_column 10 Active power_rows (from_ 15) 2 = Ok (Some 150).
Proof.
  do 3 (split; [repeat split|]). split; [repeat constructor; discriminate|]. split; [cbn; tauto|]. repeat split; vm_compute; reflexivity.
Qed.

(** [good_sections()]: the runs of samples within the window that are at most
    [msp] apart, whatever the chunk size; a run that goes on after the window ends
    where the window ends.  Missing: series with missing values (see C14), and
    windows that end at a sample after which the run goes on. *)
Theorem C82_good_partial : forall msp rows window m rs last,
  0 <= msp -> increasing rows -> nan_free rows -> rows_within window rows m -> (2 <= length m)%nat ->
  runs_of msp (map fst m) rs -> last_of (map fst m) last ->
  (goes_on msp rows last -> tf_end window <> Some last) ->
  exists b e ts us, (b = true <-> goes_on msp rows last) /\ (b = true -> tf_end window = Some e) /\
    frames_of_runs b false rs ts /\ last_closed e ts us /\
    forall c, (1 <= c)%nat -> whole_good msp rows window c = Ok us.
Proof. exact good_whole. Qed.
Print Assumptions C82_good_partial.
Theorem C82_good_few : forall msp rows window m c, increasing rows -> (2 <= length rows)%nat -> (1 <= c)%nat ->
  rows_within window rows m -> (length m < 2)%nat -> whole_good msp rows window c = Ok [].
Proof. exact good_few. Qed.
Print Assumptions C82_good_few.

Definition good_rows : list (sample bool) := [(0, true); (10, true); (1000, true); (1010, true); (1020, true)].
Example C82_good_ex : increasing good_rows /\ nan_free good_rows /\ rows_within (until 1015) good_rows (firstn 4 good_rows) /\
  runs_of 10 [0; 10; 1000; 1010] [[0; 10]; [1000; 1010]] /\ last_of [0; 10; 1000; 1010] 1010 /\ goes_on 10 good_rows 1010 /\ tf_end (until 1015) <> Some 1010 /\
  whole_good 10 good_rows (until 1015) 2 = Ok [mkTF (Some 0) (Some 10) true false false; mkTF (Some 1000) (Some 1015) true false true].
Proof.
  split; [cbn; lia|]. split; [repeat constructor|]. split.
  - unfold rows_within, good_rows. cbn [firstn].
    do 4 (apply filt_keep; [split; [reflexivity|split; [discriminate|intros e [= <-]; cbn; lia]]|]).
    apply filt_drop; [intros (_ & _ & K); specialize (K 1015 eq_refl); cbn in K; lia|]. constructor.
  - split; [|split; [exists [0; 10; 1000]; reflexivity|split; [exists (1020, true); cbn; split; [tauto|split; [reflexivity|lia]]|split; [discriminate|vm_compute; reflexivity]]]].
    split; [reflexivity|]. split.
    + repeat constructor; try discriminate; cbn; lia.
    + split; [|exact I]. intros x y (q & E) (q' & E'). injection E' as <- _.
      change [0; 10] with ([0] ++ [10]) in E. apply app_inj_tail in E. destruct E as [_ <-]. lia.
Qed.

(** The window ends at a sample at which a run begins that goes on: the
    statistic cannot be had at all, though there is a good section. *)
Theorem C82_good_refuted :
  increasing good_rows /\ nan_free good_rows /\ goes_on 10 good_rows 1000 /\
  whole_good 10 good_rows (until 1000) 1 = Err ValueError /\ whole_good 10 good_rows (until 1000) 100 = Err ValueError /\
  whole_good 10 good_rows (until 999) 100 = Ok [mkTF (Some 0) (Some 10) true false true].
Proof.
  split; [cbn; lia|]. split; [repeat constructor|]. split; [exists (1010, true); cbn; split; [tauto|split; [reflexivity|lia]]|].
  repeat split; vm_compute; reflexivity.
Qed.
Print Assumptions C82_good_refuted.

(** [dropout_rate(ignore_gaps=False)] is a proportion, and the proportion of
    samples missing within the window if the table is loaded in one chunk. *)
Theorem C82_dropout_range : forall A period (rows m : list (sample A)) window c, 0 < period -> increasing rows -> (1 <= c)%nat ->
  rows_within window rows m -> (2 <= length m)%nat -> exists q, whole_dropout period rows window c = Ok q /\ (0 <= q <= 1)%Q.
Proof. exact @dropout_range. Qed.
Print Assumptions C82_dropout_range.
Theorem C82_dropout_partial : forall A period (rows m : list (sample A)) window c, 0 < period -> increasing rows -> (length rows <= c)%nat ->
  rows_within window rows m -> (2 <= length m)%nat -> exists q, whole_dropout period rows window c = Ok q /\ missing_rate period m q.
Proof. exact @dropout_one. Qed.
Print Assumptions C82_dropout_partial.

(** Not so for other chunk sizes: chunks of fewer than five rows say that nothing
    is missing, whatever the data. *)
Theorem C82_dropout_refuted : forall A period (rows m : list (sample A)) window c, 0 < period -> increasing rows -> (1 <= c <= 3)%nat ->
  rows_within window rows m -> (2 <= length m)%nat -> exists q, whole_dropout period rows window c = Ok q /\ (q == 0)%Q.
Proof. exact @dropout_small. Qed.
Print Assumptions C82_dropout_refuted.
(** A window with one reading has no rate. *)
Theorem C82_dropout_single_refuted : forall A period (rows m : list (sample A)) window c, 0 < period -> increasing rows -> (2 <= length rows)%nat -> (1 <= c)%nat ->
  rows_within window rows m -> length m = 1%nat -> whole_dropout period rows window c = Err KeyError.
Proof. exact @dropout_single. Qed.
Print Assumptions C82_dropout_single_refuted.
(** Ten samples where there should be 105: the answer varies with the chunk size. *)
Definition gappy : list (sample bool) := map (fun i => (i, true)) [0; 10; 20; 30; 40; 1000; 1010; 1020; 1030; 1040].
Theorem C82_dropout_witness_refuted : increasing gappy /\ rows_within anytime gappy gappy /\
  (exists q, whole_dropout 10 gappy anytime 10 = Ok q /\ missing_rate 10 gappy q /\ (q == 95 # 105)%Q) /\
  (exists q, whole_dropout 10 gappy anytime 4 = Ok q /\ (q == 19 # 48)%Q) /\
  (exists q, whole_dropout 10 gappy anytime 5 = Ok q /\ (q == 570 # 1111)%Q) /\
  (exists q, whole_dropout 10 gappy anytime 3 = Ok q /\ (q == 0)%Q).
Proof.
  assert (I : increasing gappy) by (cbn; lia).
  assert (W : rows_within anytime gappy gappy).
  { unfold rows_within, gappy. cbn [map]. do 10 (apply filt_keep; [split; [reflexivity|split; discriminate]|]). constructor. }
  split; [exact I|]. split; [exact W|]. split; [|split; [|split]].
  - destruct (dropout_one 10 gappy gappy anytime 10) as (q & E & M); [lia|exact I|cbn; lia|exact W|cbn; lia|]. exists q. split; [exact E|]. split; [exact M|].
    vm_compute in E. injection E as <-. reflexivity.
  - eexists; split; [vm_compute; reflexivity|reflexivity].
  - eexists; split; [vm_compute; reflexivity|reflexivity].
  - eexists; split; [vm_compute; reflexivity|reflexivity].
Qed.
Print Assumptions C82_dropout_witness_refuted.

(** A table of fewer than two rows has no such statistic. *)
Theorem C82_short : forall columns msp a (rows : list (sample (list (option Z)))) (rows' : list (sample bool)) period window c,
  (length rows < 2)%nat -> (length rows' < 2)%nat ->
  whole_energy columns msp a rows window c = Err (match rows with [] => IndexError | _ => ValueError end) /\
  whole_dropout period rows window c = Err (match rows with [] => IndexError | _ => ValueError end) /\
  whole_good msp rows' window c = Err (match rows' with [] => IndexError | _ => ValueError end).
Proof. exact short_statistics. Qed.
Print Assumptions C82_short.
