(** C87: importing tables with a column for each meter, as the REFIT and DRED converters do. *)
From Coq Require Import String Ascii Sorted Permutation Lia.
From Verif Require Import Base StoreSpec RawModel WideModel WideSpec WideProofs.
Import List. Open Scope list_scope. Open Scope nat_scope.

(** After a REFIT conversion that ends normally, buildings 1 to 20 hold the houses 1 to 13 and
    15 to 21, each with a meter for each power column of its file, in the order of time; there is
    nothing else in the store. *)
Theorem C87_refit : forall (V : Type) (argsort : list Z -> list nat) (stamp : V -> option Z) (d : folder V) s,
  orders argsort -> usable d -> convert_refit stamp argsort (Some d) = (s, None) ->
  (forall h, refit_house_id h -> imported stamp s d h) /\ (forall b c, (b < 1 \/ 20 < b)%Z -> get s (b, c) = None).
Proof. intros V argsort stamp d s Ha. exact (refit_imports argsort Ha stamp d s). Qed.
Print Assumptions C87_refit.

(** Meter 1 is the aggregate and meter k + 1 is appliance k if the columns of the file are in
    the usual order. *)
Theorem C87_refit_usual : forall (V : Type) (argsort : list Z -> list nat) (stamp : V -> option Z) (d : folder V) s h f k name col u,
  orders argsort -> usable d -> convert_refit stamp argsort (Some d) = (s, None) -> refit_house_id h -> house_file d h (Ok f) ->
  (forall kept, is_filter (fun c => In (fst c) power_columns) f kept -> map fst kept = power_columns) ->
  nth_error power_columns k = Some name -> In (name, col) f -> In ("Unix"%string, u) f ->
  exists times order l, Forall2 (fun v t => stamp v = Some t) u times /\ in_order times order /\
    get s (building_of h, (Z.of_nat k + 1)%Z) = Some ([(Power, Some Active)], l) /\
    Forall2 (fun i r => nth_error times i = Some (fst r) /\ nth_error col i = Some (snd r)) order l.
Proof. intros V argsort stamp d s h f k name col u Ha. exact (refit_usual argsort Ha stamp d s h f k name col u). Qed.
Print Assumptions C87_refit_usual.

(** It ends normally exactly when the files of all twenty houses are there, can be read, have all
    columns and valid times. *)
Theorem C87_refit_succeeds : forall (V : Type) (argsort : list Z -> list nat) (stamp : V -> option Z) (d : folder V),
  orders argsort -> usable d ->
  (snd (convert_refit stamp argsort (Some d)) = None <->
   forall h, refit_house_id h -> exists f, house_file d h (Ok f) /\ complete f /\ stamped stamp f).
Proof. intros V argsort stamp d Ha. exact (refit_succeeds argsort Ha stamp d). Qed.
Print Assumptions C87_refit_succeeds.

(** Otherwise it stops at a house without a usable file: the houses before are in the store, and
    nothing else. *)
Theorem C87_refit_interrupted : forall (V : Type) (argsort : list Z -> list nat) (stamp : V -> option Z) (d : folder V) s e,
  orders argsort -> usable d -> convert_refit stamp argsort (Some d) = (s, Some e) ->
  exists h, refit_house_id h /\
    ((e = RuntimeError /\ forall c, ~ house_file d h c) \/ house_file d h (Err e) \/
     (e = ValueError /\ exists f, house_file d h (Ok f) /\ ~ (complete f /\ stamped stamp f))) /\
    (forall h', refit_house_id h' -> (h' < h)%Z -> imported stamp s d h') /\
    (forall b c, (b < 1 \/ building_of h <= b)%Z -> get s (b, c) = None).
Proof. intros V argsort stamp d s e Ha. exact (refit_interrupted argsort Ha stamp d s e). Qed.
Print Assumptions C87_refit_interrupted.

(** The names of the columns do not decide which meter they become: a file with the columns of
    appliances 1 and 2 the other way round has them as each other's meters. *)
Theorem C87_refit_columns_refuted : exists (d : folder Z) f,
  usable d /\ house_file d 1 (Ok f) /\ In ("Appliance1"%string, [5%Z]) f /\ In ("Appliance2"%string, [7%Z]) f /\
  forall argsort, (forall l, length l <= 1 -> argsort l = seq 0 (length l)) ->
  exists s, convert_refit (fun v => Some v) argsort (Some d) = (s, None) /\
    get s (1, 2)%Z = Some ([(Power, Some Active)], [(0%Z, 7%Z)]) /\ get s (1, 3)%Z = Some ([(Power, Some Active)], [(0%Z, 5%Z)]).
Proof.
  set (f := [("Time", [0%Z]); ("Unix", [0%Z]); ("Aggregate", [20%Z]); ("Appliance2", [7%Z]); ("Appliance1", [5%Z]); ("Appliance3", [0%Z]); ("Appliance4", [0%Z]);
             ("Appliance5", [0%Z]); ("Appliance6", [0%Z]); ("Appliance7", [0%Z]); ("Appliance8", [0%Z]); ("Appliance9", [0%Z])]%string).
  exists (map (fun h => (("CLEAN_House" ++ decimal h ++ ".csv")%string, Ok f)) refit_ids), f.
  split; [|split; [|split; [|split]]].
  - split; [vm_compute; repeat constructor; cbn; intuition discriminate|]. intros n g H. apply in_map_iff in H. destruct H as (h & [= _ <-] & _).
    split; [vm_compute; repeat constructor; cbn; intuition discriminate|]. exists 1. repeat constructor.
  - right. split; [intros c H; vm_compute in H; intuition discriminate|]. vm_compute. left. reflexivity.
  - vm_compute. intuition.
  - vm_compute. intuition.
  - intros argsort Ha. assert (E : argsort [0%Z] = [0]) by (apply (Ha [0%Z]); cbn; lia).
    assert (R : forall h, refit_house (fun v => Some v) argsort (map (fun h => (("CLEAN_House" ++ decimal h ++ ".csv")%string, Ok f)) refit_ids) "CLEAN_" "" h =
       match entry (csv_name "CLEAN_" "" h) (map (fun h => (("CLEAN_House" ++ decimal h ++ ".csv")%string, Ok f)) refit_ids) with None => Err RuntimeError
       | Some c => do g <- c; do fr <- refit_load (fun v => Some v) g; Ok (sort_index argsort fr) end) by reflexivity.
    assert (S0 : sort_index argsort ([0%Z], [[20%Z]; [7%Z]; [5%Z]; [0%Z]; [0%Z]; [0%Z]; [0%Z]; [0%Z]; [0%Z]; [0%Z]]) = ([0%Z], [[20%Z]; [7%Z]; [5%Z]; [0%Z]; [0%Z]; [0%Z]; [0%Z]; [0%Z]; [0%Z]; [0%Z]])).
    { unfold sort_index. cbn [fst]. rewrite E. reflexivity. }
    assert (Rh : forall h, In h refit_ids -> refit_house (fun v => Some v) argsort (map (fun h => (("CLEAN_House" ++ decimal h ++ ".csv")%string, Ok f)) refit_ids) "CLEAN_" "" h
       = Ok ([0%Z], [[20%Z]; [7%Z]; [5%Z]; [0%Z]; [0%Z]; [0%Z]; [0%Z]; [0%Z]; [0%Z]; [0%Z]])).
    { intros h Hh. rewrite R. rewrite <- S0. cbn [refit_ids In] in Hh. repeat (destruct Hh as [<-|Hh]; [reflexivity|]). destruct Hh. }
    unfold convert_refit. change (entry (csv_name "" "_" 1) (map (fun h => (("CLEAN_House" ++ decimal h ++ ".csv")%string, Ok f)) refit_ids)) with (@None (res (csv Z))). cbv iota.
    remember (map (fun h => (("CLEAN_House" ++ decimal h ++ ".csv")%string, Ok f)) refit_ids) as d. clear R Heqd.
    unfold refit_ids in *. cbn [refit_houses]. cbv zeta. repeat (rewrite Rh by (cbn [In]; tauto)). cbn [fst snd put_columns put]. eexists. split; [reflexivity|]. split; vm_compute; reflexivity.
Qed.
Print Assumptions C87_refit_columns_refuted.

(** After a DRED conversion that ends normally, building 1 has a meter of apparent power for each
    of the 13 columns after the time, in the order of time; the first three lines of the file are
    left out. *)
Theorem C87_dred : forall (V : Type) (argsort : list Z -> list nat) (stamp : V -> option Z) (nan : V) (file : res (list (list V))) s,
  orders argsort -> (forall lines, file = Ok lines -> Forall (fun l => l <> []) lines) -> convert_dred stamp nan argsort file = (s, None) ->
  exists lines times cols, file = Ok lines /\ dred_table stamp nan lines times cols /\ building_holds s 1 Apparent times cols /\
    forall b c, b <> 1%Z -> get s (b, c) = None.
Proof. intros V argsort stamp nan file s Ha. exact (dred_lemma argsort Ha stamp nan file s). Qed.
Print Assumptions C87_dred.

(** It ends normally exactly when the fourth line has 14 cells, no later line more, and the first
    cells are valid times. *)
Theorem C87_dred_succeeds : forall (V : Type) (argsort : list Z -> list nat) (stamp : V -> option Z) (nan : V) (lines : list (list V)),
  Forall (fun l => l <> []) lines ->
  (snd (convert_dred stamp nan argsort (Ok lines)) = None <->
   exists a b c first r, lines = a :: b :: c :: first :: r /\ length first = 14 /\ Forall (fun l => length l <= 14) r /\
     forall l v, In l (first :: r) -> nth_error l 0 = Some v -> exists t, stamp v = Some t).
Proof. intros V argsort stamp nan lines. exact (dred_succeeds argsort stamp nan lines). Qed.
Print Assumptions C87_dred_succeeds.

(** Otherwise it writes nothing and raises what reading raised, or ValueError. *)
Theorem C87_dred_fails : forall (V : Type) (argsort : list Z -> list nat) (stamp : V -> option Z) (nan : V) (file : res (list (list V))) s e,
  convert_dred stamp nan argsort file = (s, Some e) -> s = [] /\ (file = Err e \/ e = ValueError).
Proof. intros V argsort stamp nan file s e. exact (dred_fails argsort stamp nan file s e). Qed.
Print Assumptions C87_dred_fails.

(** Twenty houses with the original names; the lines of the files are not in order. *)
Example C87_example_refit :
  let f h : csv Z := [("Time", [0; 0; 0]); ("Unix", [9; 3; 6]); ("Aggregate", [90; 30; h]); ("Appliance1", [9; 8; 7]); ("Appliance2", [0; 0; 1]); ("Appliance3", [0; 0; 2]); ("Appliance4", [0; 0; 3]);
             ("Appliance5", [0; 0; 4]); ("Appliance6", [0; 0; 5]); ("Appliance7", [0; 0; 6]); ("Appliance8", [0; 0; 7]); ("Appliance9", [0; 0; 8]); ("Issues", [0; 0; 0])]%string%Z in
  let d := map (fun h => (("House_" ++ decimal h ++ ".csv")%string, Ok (f h))) refit_ids in
  let s := fst (convert_refit (fun v => Some v) stable_order (Some d)) in
  orders stable_order /\ usable d /\ convert_refit (fun v => Some v) stable_order (Some d) = (s, None) /\ refit_house_id 15 /\ house_file d 15 (Ok (f 15%Z)) /\
  get s (14, 1)%Z = Some ([(Power, Some Active)], [(3, 30); (6, 15); (9, 90)]%Z) /\
  get s (14, 10)%Z = Some ([(Power, Some Active)], [(3, 0); (6, 8); (9, 0)]%Z) /\ get s (14, 11)%Z = None /\
  snd (convert_refit (fun v => Some v) stable_order (Some (tl d))) = Some RuntimeError /\
  snd (convert_refit (fun v => Some v) stable_order (Some (removelast d))) = Some RuntimeError.
Proof.
  cbv zeta. split; [exact stable_order_orders|]. split; [|split; [vm_compute; reflexivity|split; [split; [lia|discriminate]|split]]].
  - split; [vm_compute; repeat constructor; cbn; intuition discriminate|]. intros n g H. apply in_map_iff in H. destruct H as (h & [= _ <-] & _).
    split; [vm_compute; repeat constructor; cbn; intuition discriminate|]. exists 3. repeat constructor.
  - left. split; [eexists; vm_compute; left; reflexivity|]. vm_compute. tauto.
  - repeat split; vm_compute; reflexivity.
Qed.
Example C87_example_dred :
  let line t x := [t; x; 1; 2; 3; 4; 5; 6; 7; 8; 9; 10; 11; 12]%Z in
  let lines := [[0]; [0; 0]; [0]; line 5 50; line 2 20; [3; 30]]%Z in
  let s := fst (convert_dred (fun v => Some v) (-1)%Z stable_order (Ok lines)) in
  Forall (fun l => l <> []) lines /\ convert_dred (fun v => Some v) (-1)%Z stable_order (Ok lines) = (s, None) /\
  get s (1, 1)%Z = Some ([(Power, Some Apparent)], [(2, 20); (3, 30); (5, 50)]%Z) /\
  get s (1, 13)%Z = Some ([(Power, Some Apparent)], [(2, 12); (3, -1); (5, 12)]%Z) /\
  convert_dred (fun v => Some v) (-1)%Z stable_order (Ok (lines ++ [(0 :: line 0 0)%Z])) = ([], Some ValueError).
Proof.
  cbv zeta. split; [repeat constructor; discriminate|]. repeat split; vm_compute; reflexivity.
Qed.
