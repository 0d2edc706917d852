(** C101: windows given in local time. *)
From Coq Require Import Lia.
From Verif Require Import Base TimeFrameModel TimeFrameSpec SessionModel StoreModel StoreSpec LocalModel LocalSpec LocalProofs.
Open Scope Z_scope.

(** London in 2013, in minutes of that year: summer time from minute 129660 (31 March, 01:00 UTC) to
    minute 432060 (27 October, 01:00 UTC). *)
Definition london : zone := mkZone 0 [(129660, 60); (432060, 0)].
Definition minute (day hour min : Z) : Z := day * 1440 + hour * 60 + min.

Example C101_ex_regular : regular london.
Proof. cbn. lia. Qed.
Example C101_ex_clocks : wall london (minute 90 0 59) = minute 90 0 59 /\ wall london (minute 90 1 0) = minute 90 2 0
  /\ wall london (minute 300 0 30) = minute 300 1 30 /\ wall london (minute 300 1 30) = minute 300 1 30.
Proof. repeat split; reflexivity. Qed.

(** The window holds the instants at which clocks show the times asked for, and no others. *)
Theorem C101_selects : forall z start end_ w u, regular z -> set_local_window z start end_ = Ok w -> (inTF w u <-> shows_between z start end_ u).
Proof. exact selects. Qed.
Print Assumptions C101_selects.

(** Loading under it delivers the stored readings taken at such instants: all of them, once each, if
    there are at least two. *)
Theorem C101_load : forall A z start end_ w (rows : list (sample A)) n c, regular z -> increasing rows -> (1 <= c)%nat -> set_local_window z start end_ = Ok w ->
  start <> None \/ end_ <> None ->
  let m := filter (fun r => shows_betweenb z start end_ (fst r)) rows in
  (m = [] -> exists ch, hdf_load rows w (default_sections None) n c = ([ch], None) /\ c_rows ch = []) /\
  ((2 <= length m)%nat -> exists cs, hdf_load rows w (default_sections None) n c = (cs, None) /\ delivers cs m c).
Proof. exact @loads_shown. Qed.
Print Assumptions C101_load.

Lemma shows_between_decided : forall z start end_ u, shows_betweenb z start end_ u = true <-> shows_between z start end_ u.
Proof. exact decided. Qed.

(** The last Sunday of March. *)
Example C101_ex_sunday :
  set_local_window london (Some (minute 89 0 0)) (Some (minute 90 0 0)) = Ok (mkTF (Some (minute 89 0 0)) (Some (minute 90 0 0)) true false false) /\
  set_local_window london (Some (minute 90 0 0)) (Some (minute 91 0 0)) = Ok (mkTF (Some (minute 90 0 0)) (Some (minute 90 23 0)) true false false) /\
  map fst (concat (map c_rows (fst (hdf_load [(minute 90 0 30, 1); (minute 90 22 30, 2); (minute 90 23 30, 3)] (mkTF (Some (minute 90 0 0)) (Some (minute 90 23 0)) true false false) (default_sections None) 0 100))))
    = [minute 90 0 30; minute 90 22 30].
Proof. repeat split; reflexivity. Qed.

(** It can be set if clocks show each of its ends at one instant and they are in order, and not
    otherwise; an end that clocks skip or show twice raises. *)
Theorem C101_works : forall z start end_, (exists w, set_local_window z start end_ = Ok w) <->
  (forall a, start = Some a -> shown_once z a) /\ (forall b, end_ = Some b -> shown_once z b) /\ (forall a b, start = Some a -> end_ = Some b -> a < b).
Proof. exact works. Qed.
Print Assumptions C101_works.

Theorem C101_end_refuted : forall z start end_ a, (start = Some a \/ end_ = Some a) -> ~ shown_once z a -> (forall a b, start = Some a -> end_ = Some b -> a < b) ->
  set_local_window z start end_ = Err GenericException.
Proof. exact raises. Qed.
Print Assumptions C101_end_refuted.

(** Half past one on the nights clocks change. *)
Example C101_ex_skipped : ~ shown_once london (minute 90 1 30) /\ set_local_window london (Some (minute 90 1 30)) None = Err GenericException.
Proof. split; [|reflexivity]. intros [u H]. apply localize_ok in H. discriminate H. Qed.
Example C101_ex_twice : ~ shown_once london (minute 300 1 30) /\ set_local_window london None (Some (minute 300 1 30)) = Err GenericException.
Proof. split; [|reflexivity]. intros [u H]. apply localize_ok in H. discriminate H. Qed.
Example C101_ex_once : shown_once london (minute 300 2 0).
Proof. apply localize_once. eexists. reflexivity. Qed.

(** The ends are in order as instants, too. *)
Theorem C101_in_order : forall z a b w, regular z -> set_local_window z (Some a) (Some b) = Ok w -> exists i j, tf_start w = Some i /\ tf_end w = Some j /\ i < j.
Proof. exact in_order. Qed.
Print Assumptions C101_in_order.

(** Two windows that meet share nothing and make up the window from the start of the first to the
    end of the second. *)
Theorem C101_partition : forall z a b c w1 w2 w, regular z ->
  set_local_window z a (Some b) = Ok w1 -> set_local_window z (Some b) c = Ok w2 -> set_local_window z a c = Ok w ->
  forall u, inTF w u <-> (inTF w1 u /\ ~ inTF w2 u) \/ (inTF w2 u /\ ~ inTF w1 u).
Proof. exact two_windows. Qed.
Print Assumptions C101_partition.

(** It lasts as long as the times asked for are apart, less what clocks were set forward. *)
Theorem C101_length : forall z a b w i j, set_local_window z (Some a) (Some b) = Ok w -> tf_start w = Some i -> tf_end w = Some j ->
  j - i = (b - a) - ((wall z j - j) - (wall z i - i)).
Proof. exact lasts. Qed.
Print Assumptions C101_length.

(** So not every day has 24 hours. *)
Theorem C101_day_refuted : exists z d1 d2 w1 w2, regular z /\
  set_local_window z (Some d1) (Some (d1 + 24 * 60)) = Ok w1 /\ tf_timedelta w1 = Some (23 * 60) /\
  set_local_window z (Some d2) (Some (d2 + 24 * 60)) = Ok w2 /\ tf_timedelta w2 = Some (25 * 60).
Proof. exists london, (minute 90 0 0), (minute 300 0 0). eexists _, _. repeat split; cbn; lia. Qed.
Print Assumptions C101_day_refuted.

(** Were clocks set forward, soon after back and soon after forward again, a window could end before
    it starts, and hold no reading of those asked for: the order is checked before the zone is known. *)
Theorem C101_irregular_refuted : exists z a b w i j u, set_local_window z (Some a) (Some b) = Ok w /\ tf_start w = Some i /\ tf_end w = Some j /\ j < i /\
  shows_between z (Some a) (Some b) u /\ forall v, ~ inTF w v.
Proof.
  exists (mkZone 0 [(100, 60); (110, 0); (150, 60)]), 120, 165, (mkTF (Some 120) (Some 105) true false false), 120, 105, 130.
  split; [reflexivity|]. split; [reflexivity|]. split; [reflexivity|]. split; [lia|]. split.
  - split; intros ? [= <-]; cbn; lia.
  - intros v (_ & B & C). specialize (B _ eq_refl). specialize (C _ eq_refl). lia.
Qed.
Print Assumptions C101_irregular_refuted.
