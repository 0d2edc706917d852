(** Property C68: one data set read through several generators while its
    window is changed. *)
From Verif Require Import Base TimeFrameModel TimeFrameSpec StoreModel StoreSpec.
From Verif Require Import SessionModel SessionSpec SessionProofs SessionProofs2.
Open Scope nat_scope.

(** A call of [set_window] on an opened data set with a time zone returns if
    and only if every end that is given is a wall clock time that exists in
    that zone and the start comes before the end; otherwise it raises and
    changes nothing.  No call touches a generator. *)
Theorem C68_set_window : forall A (tables : nat -> option (list (sample A))) lo st s e,
  (fst (step tables (Some lo) st (SetWindow s e)) = Done <->
   (forall x, s = Some x -> exists t i, x = Naive t /\ lo t = Ok i) /\
   (forall x, e = Some x -> exists t i, x = Naive t /\ lo t = Ok i) /\
   (forall a b, s = Some (Naive a) -> e = Some (Naive b) -> (a < b)%Z)) /\
  (fst (step tables (Some lo) st (SetWindow s e)) = Done \/
   exists x, step tables (Some lo) st (SetWindow s e) = (Raised x, st)) /\
  se_cursors (snd (step tables (Some lo) st (SetWindow s e))) = se_cursors st.
Proof. exact @step_set_window. Qed.
Print Assumptions C68_set_window.

(** Which exception is raised. *)
Theorem C68_set_window_errors :
  (forall zone s e, set_window false zone s e = Err RuntimeError) /\
  (forall b s e, set_window b None s e = Err RuntimeError) /\
  (forall lo a b, (b <= a)%Z -> set_window true (Some lo) (Some (Naive a)) (Some (Naive b)) = Err ValueError /\
     set_window true (Some lo) (Some (Aware a)) (Some (Aware b)) = Err ValueError) /\
  (forall lo a b, set_window true (Some lo) (Some (Aware a)) (Some (Naive b)) = Err TypeError /\
     set_window true (Some lo) (Some (Naive b)) (Some (Aware a)) = Err TypeError) /\
  (forall lo a b, (a < b)%Z -> set_window true (Some lo) (Some (Aware a)) (Some (Aware b)) = Err TypeError) /\
  (forall lo a, set_window true (Some lo) (Some (Aware a)) None = Err TypeError /\
     set_window true (Some lo) None (Some (Aware a)) = Err TypeError).
Proof. exact set_window_errors. Qed.
Print Assumptions C68_set_window_errors.

(** Whatever was done with the data set, the window in force is that of the
    last call that returned, or all of time if none did. *)
Theorem C68_window : forall A (tables : nat -> option (list (sample A))) zone ops,
  in_force zone (fst (run tables zone opened ops)) (se_window (snd (run tables zone opened ops))).
Proof. exact @window_in_force. Qed.
Print Assumptions C68_window.

(** A generator that was advanced under one window only delivers exactly what
    one uninterrupted load under that window delivers (C09, C10), whatever was
    done in between with the data set and with other generators. *)
Theorem C68_load : forall A (tables : nat -> option (list (sample A))) zone pre post key ss n c la lb rows w,
  fst (run tables zone opened (pre ++ Load key ss n c :: post)) = la ++ (Load key ss n c, Done) :: lb ->
  length la = length pre -> tables key = Some rows ->
  (forall x, used zone (la ++ [(Load key ss n c, Done)]) lb (loads pre) x -> x = w) ->
  answers (loads pre) lb = stream (hdf_load rows w (default_sections ss) n c) (length (answers (loads pre) lb)).
Proof. exact @load_one_window. Qed.
Print Assumptions C68_load.

(** In general every section is read under one window, which was in force at a
    time when the generator was advanced. *)
Theorem C68_sections : forall A (tables : nat -> option (list (sample A))) zone pre post key ss n c la lb,
  fst (run tables zone opened (pre ++ Load key ss n c :: post)) = la ++ (Load key ss n c, Done) :: lb ->
  length la = length pre ->
  let g := loads pre in
  answers g lb = [] \/
  exists ws, length ws = length (default_sections ss) /\
    Forall (used zone (la ++ [(Load key ss n c, Done)]) lb g) ws /\
    answers g lb = stream (sections_under tables key n c ws (default_sections ss)) (length (answers g lb)).
Proof. exact @load_answers. Qed.
Print Assumptions C68_sections.

(** No row is delivered that lies outside all the windows that were in force
    when the generator was advanced, or outside all the sections asked for. *)
Theorem C68_confined : forall A (tables : nat -> option (list (sample A))) zone pre post key ss n c la lb rows ch r,
  fst (run tables zone opened (pre ++ Load key ss n c :: post)) = la ++ (Load key ss n c, Done) :: lb ->
  length la = length pre ->
  tables key = Some rows -> increasing rows -> 1 <= c -> Forall half_open (default_sections ss) ->
  In (Next (loads pre), Got ch) lb -> In r (c_rows ch) ->
  In r rows /\
  (exists w, used zone (la ++ [(Load key ss n c, Done)]) lb (loads pre) w /\ inTF w (fst r)) /\
  (exists s, In s (default_sections ss) /\ inTF s (fst r)).
Proof. exact @rows_confined. Qed.
Print Assumptions C68_confined.

(** What a generator answers does not depend on what is done with other
    generators, nor on when they are asked for. *)
Theorem C68_no_interference : forall A (tables : nat -> option (list (sample A))) zone pre post key ss n c,
  let st := snd (run tables zone opened (pre ++ [Load key ss n c])) in
  answers (loads pre) (fst (run tables zone st post)) =
  answers (loads pre) (fst (run tables zone st (filter (concerns (loads pre)) post))).
Proof. exact @no_interference. Qed.
Print Assumptions C68_no_interference.

(** Reading a meter that the store does not have raises [KeyError] at the first
    [next] (not when [load] is called); the generator is then at its end. *)
Theorem C68_missing : forall A (tables : nat -> option (list (sample A))) zone pre post key n c la lb,
  fst (run tables zone opened (pre ++ Load key None n c :: post)) = la ++ (Load key None n c, Done) :: lb ->
  length la = length pre -> tables key = None ->
  (forall x, used zone (la ++ [(Load key None n c, Done)]) lb (loads pre) x -> exists i, inTF x i) ->
  answers (loads pre) lb = stream ([], Some KeyError) (length (answers (loads pre) lb)).
Proof. exact @missing_table. Qed.
Print Assumptions C68_missing.

(** The window in force when [load] is called is not what counts: a later
    [set_window] changes what the generator delivers. *)
Theorem C68_late_window_refuted : exists ch r,
  fst (run wit_tables (Some utc) opened [until 3; Load 0 None 0 100; from_ 4; Next 0]) =
    [(until 3, Done); (Load 0 None 0 100, Done); (from_ 4, Done); (Next 0, Got ch)] /\
  In r (c_rows ch) /\ (3 <= fst r)%Z.
Proof. exact late_window. Qed.
Print Assumptions C68_late_window_refuted.

(** One load can mix rows of two windows that have nothing in common. *)
Theorem C68_mixed_windows_refuted : exists ss c1 c2 r1 r2,
  fst (run wit_tables (Some utc) opened [until 3; Load 0 (Some ss) 0 100; Next 0; from_ 4; Next 0]) =
    [(until 3, Done); (Load 0 (Some ss) 0 100, Done); (Next 0, Got c1); (from_ 4, Done); (Next 0, Got c2)] /\
  In r1 (c_rows c1) /\ In r2 (c_rows c2) /\ (fst r1 < 3)%Z /\ (4 <= fst r2)%Z.
Proof. exact mixed_windows. Qed.
Print Assumptions C68_mixed_windows_refuted.

(** Two meters read in turns, with a failing [set_window] in between. *)
Definition two_meters : list op :=
  [until 6; Load 0 None 1 2; Next 0; Load 0 None 0 100; Next 1; SetWindow (Some (Naive 9)) (Some (Naive 4));
   Next 0; Next 1; Next 0; Load 7 None 0 10; Next 2; Next 2; Next 5].
Example C68_example_turns :
  map snd (fst (run wit_tables (Some utc) opened two_meters)) =
  let f a b := mkTF (Some a) (Some b) true false false in
  [Done; Done; Got (mkChunk [(1, 10); (2, 20); (3, 30)]%Z (Some [(4, 40)]%Z) (f 1%Z 3%Z)); Done;
   Got (mkChunk [(1, 10); (2, 20); (3, 30); (4, 40); (5, 50)]%Z None (f 1%Z 6%Z)); Raised ValueError;
   Got (mkChunk [(3, 30); (4, 40); (5, 50)]%Z (Some [(6, 60)]%Z) (f 3%Z 6%Z)); Ended; Ended; Done;
   Raised KeyError; Ended; Raised NameError].
Proof. vm_compute. reflexivity. Qed.

(** The hypotheses of C68_load and C68_confined are met by the first
    generator of that session. *)
Example C68_example_hypotheses : exists la lb,
  fst (run wit_tables (Some utc) opened ([until 6] ++ Load 0 None 1 2 :: tl (tl two_meters))) =
    la ++ (Load 0 None 1 2, Done) :: lb /\ length la = 1 /\ wit_tables 0 = Some wit_rows /\ increasing wit_rows /\
  Forall half_open (default_sections None) /\
  (forall x, used (Some utc) (la ++ [(Load 0 None 1 2, Done)]) lb 0 x -> x = mkTF None (Some 6%Z) true false false) /\
  length (answers 0 lb) = 3.
Proof.
  eexists [_], _. split; [vm_compute; reflexivity|]. split; [reflexivity|]. split; [reflexivity|].
  split; [cbn; lia|]. split; [constructor; [reflexivity|constructor]|]. split; [|reflexivity].
  intros x (l1 & r & l2 & E & H). destruct H as [(_ & H)|(k1 & s & e & k2 & lo & E2 & N & [= <-] & K)].
  - exfalso. apply (H None (Some (Naive 6))). left. reflexivity.
  - assert (P : (s, e) = (None, Some (Naive 6))).
    { assert (I : In (SetWindow s e, Done) (((SetWindow None (Some (Naive 6)), Done) :: [(Load 0 None 1 2, Done)]) ++ l1)) by
        (cbn [List.app] in *; rewrite E2; apply in_app_iff; right; left; reflexivity).
      assert (J : In (SetWindow s e, @Done Z) l1 -> False).
      { intros J. assert (J2 : In (SetWindow s e, @Done Z) (l1 ++ (Next 0, r) :: l2)) by (apply in_app_iff; left; exact J).
        rewrite <- E in J2. cbn in J2. repeat (destruct J2 as [J2|J2]; [discriminate J2|]). destruct J2. }
      cbn in I. destruct I as [I|[I|I]]; [congruence|discriminate|]. destruct (J I). }
    injection P as -> ->. destruct K as (K1 & K2 & K3 & K4 & K5 & K6).
    destruct x as [xs xe en em inc]. cbn in K1, K2. subst. unfold tf_start, tf_end in *. cbn in *.
    destruct en; [|discriminate (proj1 K6 eq_refl)].
    rewrite (proj2 K5 eq_refl). f_equal. apply K4. exists 6%Z. split; reflexivity.
Qed.
