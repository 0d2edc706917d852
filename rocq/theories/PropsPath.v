(** C86: from the raw files of a data set to the energy of a meter. *)
From Coq Require Import String Sorted Permutation Lia.
From Verif Require Import Base TimeFrameModel TimeFrameSpec StoreModel StoreSpec EnergyModel EnergySpec WholeModel WholeSpec RawModel RawSpec RawProofs2 PathModel PathSpec PathProofs.
Import List. Open Scope list_scope. Open Scope Z_scope.

(** After importing REDD, the total energy of the meter of a channel over a window is
    the energy of the lines of its file in that window, in the order of time, in
    whatever order the file has them and however large the chunks are. *)
Theorem C86_redd : forall (sorter : rows line -> rows line) (d : root line) s h c r l msp window csize e,
  sorts sorter -> proper d -> convert_redd sorter (Some d) = (s, None) ->
  1 <= h <= 9 -> 1 <= c <= 99 -> channel_file d h c (Ok r) -> timeline r l ->
  0 <= msp -> (1 <= csize)%nat -> file_energy msp 0 l window e ->
  energy_of s h c msp (if c <=? 2 then EnergyModel.Apparent else EnergyModel.Active) window csize = Ok (Some e).
Proof. intros sorter d s h c r l msp window csize e Hs Hp. exact (redd_energy sorter d s Hs Hp h c r l msp window csize e). Qed.
Print Assumptions C86_redd.

(** The order of the lines in the file of a channel does not matter. *)
Theorem C86_redd_order : forall (sorter : rows line -> rows line) (d d' : root line) s s' h c r r',
  sorts sorter -> proper d -> proper d' -> convert_redd sorter (Some d) = (s, None) -> convert_redd sorter (Some d') = (s', None) ->
  1 <= h <= 9 -> 1 <= c <= 99 -> channel_file d h c (Ok r) -> channel_file d' h c (Ok r') -> Permutation r r' -> NoDup (map fst r) ->
  forall msp a window csize, energy_of s h c msp a window csize = energy_of s' h c msp a window csize.
Proof. exact redd_order. Qed.
Print Assumptions C86_redd_order.

(** After importing UK-DALE with duplicates dropped, the total energy of the meter of
    a channel is the energy of the lines of its file, the first for each time, if the
    lines are in the order of time. *)
Theorem C86_ukdale : forall (sorter : rows line -> rows line) (m : ac_map) (mains : Z -> res (rows line)) (d : root line) s h c t ts r l msp window csize e,
  NoDup (map fst m) -> proper d -> convert_ukdale sorter m mains true (Some d) = (s, None) ->
  In ((h, c), t :: ts) m -> t :: ts <> [RawModel.Active; RawModel.Apparent] ->
  1 <= h <= 9 -> 1 <= c <= 99 -> channel_file d h c (Ok r) -> StronglySorted Z.le (map fst r) -> first_of_each r l ->
  0 <= msp -> (1 <= csize)%nat -> file_energy msp 0 l window e ->
  energy_of s h c msp (same_type t) window csize = Ok (Some e).
Proof. intros sorter m mains d s h c t ts r l msp window csize e Hm Hp E. exact (ukdale_energy sorter m mains d s Hm Hp E h c t ts r l msp window csize e). Qed.
Print Assumptions C86_ukdale.

(** The mains recorded each second: active and apparent energy. *)
Theorem C86_ukdale_mains : forall (sorter : rows line -> rows line) (m : ac_map) (mains : Z -> res (rows line)) (d : root line) s h c r l k a msp window csize e,
  NoDup (map fst m) -> proper d -> convert_ukdale sorter m mains true (Some d) = (s, None) ->
  In ((h, c), [RawModel.Active; RawModel.Apparent]) m ->
  mains h = Ok r -> StronglySorted Z.le (map fst r) -> first_of_each r l ->
  (k = 0%nat /\ a = EnergyModel.Active \/ k = 1%nat /\ a = EnergyModel.Apparent) ->
  0 <= msp -> (1 <= csize)%nat -> file_energy msp k l window e ->
  energy_of s h c msp a window csize = Ok (Some e).
Proof. intros sorter m mains d s h c r l k a msp window csize e Hm Hp E. exact (ukdale_mains_energy sorter m mains d s Hm Hp E h c r l k a msp window csize e). Qed.
Print Assumptions C86_ukdale_mains.

(** Lines of a UK-DALE file that are not in the order of time are not put in order:
    the energy is wrong. *)
Theorem C86_ukdale_order_refuted : exists (m : ac_map) (d : root line) r l window e,
  NoDup (map fst m) /\ proper d /\ channel_file d 1 2 (Ok r) /\ timeline r l /\ file_energy 60 0 l window e /\
  forall sorter mains, exists s e', convert_ukdale sorter m mains true (Some d) = (s, None) /\
    energy_of s 1 2 60 EnergyModel.Active window 10 = Ok (Some e') /\ e' <> e.
Proof.
  exists [((1, 2), [RawModel.Active])].
  exists [("house_1"%string, Some [("channel_2.dat"%string, Some (Ok [(6, [Some 70]); (0, [Some 80]); (12, [Some 80])]))])].
  exists [(6, [Some 70]); (0, [Some 80]); (12, [Some 80])], [(0, [Some 80]); (6, [Some 70]); (12, [Some 80])], (mkTF None None true false false), 900.
  split; [repeat constructor; intros []|]. split; [|split; [|split; [|split]]].
  - split; [cbn; repeat constructor; cbn; tauto|]. intros n files [H|[]]. injection H as _ <-. cbn. repeat constructor; cbn; tauto.
  - eexists. split; [left; reflexivity|]. left; reflexivity.
  - split; [apply perm_swap|repeat split; reflexivity].
  - exists [(0, [Some 80]); (6, [Some 70]); (12, [Some 80])], [(0, 80); (6, 70); (12, 80)]. split; [apply all_within; intros x _; repeat split; discriminate|].
    split; [cbn; lia|]. split; [repeat apply Forall2_cons; try apply Forall2_nil; split; reflexivity|].
    right. exists 0, 12. split; [exists (0, 80), [(6, 70); (12, 80)]; split; reflexivity|]. split; [exists (12, 80), [(0, 80); (6, 70)]; split; reflexivity|]. vm_compute. reflexivity.
  - intros sorter mains. eexists. exists 540. split; [vm_compute; reflexivity|]. split; [vm_compute; reflexivity|discriminate].
Qed.
Print Assumptions C86_ukdale_order_refuted.

(** A constant load of [p] watts, reported often enough, has the energy [p] times the
    time from the first to the last line of the file. *)
Theorem C86_redd_constant : forall (sorter : rows line -> rows line) (d : root line) s h c r l msp window csize p lo hi,
  sorts sorter -> proper d -> convert_redd sorter (Some d) = (s, None) ->
  1 <= h <= 9 -> 1 <= c <= 99 -> channel_file d h c (Ok r) -> timeline r l ->
  0 <= msp -> (1 <= csize)%nat -> steady msp p l -> (2 <= length l)%nat ->
  (forall x, In x l -> within window (fst x)) -> first_time l lo -> last_time l hi ->
  energy_of s h c msp (if c <=? 2 then EnergyModel.Apparent else EnergyModel.Active) window csize = Ok (Some (p * (hi - lo))).
Proof.
  intros sorter d s h c r l msp window csize p lo hi Hs Hp E Hh Hc Hf T Hm Hcs S L W F La.
  exact (redd_energy sorter d s Hs Hp h c r l msp window csize _ E Hh Hc Hf T Hm Hcs (steady_energy msp p l window lo hi Hm (proj2 T) S L W F La)).
Qed.
Print Assumptions C86_redd_constant.

(** There is no energy for a channel without a file. *)
Theorem C86_redd_missing : forall (sorter : rows line -> rows line) (d : root line) s h c msp a window csize,
  sorts sorter -> proper d -> convert_redd sorter (Some d) = (s, None) ->
  (forall raw, ~ channel_file d h c raw) -> energy_of s h c msp a window csize = Err KeyError.
Proof. exact redd_missing. Qed.
Print Assumptions C86_redd_missing.

(** A house with two channels whose lines are in no order. *)
Example C86_example :
  let d : root line := [("house_2"%string, Some [("channel_1.dat"%string, Some (Ok [(9, [Some 100]); (0, [Some 100]); (3, [Some 100])]));
                                                 ("channel_11.dat"%string, Some (Ok [(3, [Some 20]); (0, [Some 10]); (90, [Some 0])]))])] in
  let s := fst (convert_redd (sort_rows true) (Some d)) in let w := mkTF None None true false false in
  proper d /\ convert_redd (sort_rows true) (Some d) = (s, None) /\
  channel_file d 2 1 (Ok [(9, [Some 100]); (0, [Some 100]); (3, [Some 100])]) /\
  timeline [(9, [Some 100]); (0, [Some 100]); (3, [Some 100])] [(0, [Some 100]); (3, [Some 100]); (9, [Some 100])] /\
  steady 60 100 [(0, [Some 100]); (3, [Some 100]); (9, [Some 100])] /\
  energy_of s 2 1 60 EnergyModel.Apparent w 2 = Ok (Some 900) /\
  energy_of s 2 11 60 EnergyModel.Active w 1 = Ok (Some 1230) /\ energy_of s 2 3 60 EnergyModel.Active w 1 = Err KeyError /\
  energy_of s 2 11 60 EnergyModel.Active (mkTF (Some 0) (Some 50) true false false) 1 = Ok (Some 30).
Proof.
  split; [|split; [|split; [|split; [|split]]]].
  - split; [cbn; repeat constructor; cbn; tauto|]. intros n files [H|[]]. injection H as _ <-. cbn. repeat constructor; cbn; intuition discriminate.
  - vm_compute. reflexivity.
  - eexists. split; [left; reflexivity|]. left; reflexivity.
  - split; [|repeat split; reflexivity]. apply Permutation_sym. apply (Permutation_cons_app [(0, [Some 100]); (3, [Some 100])] []). apply Permutation_refl.
  - repeat split; cbn; lia.
  - repeat split; vm_compute; reflexivity.
Qed.
Example C86_example_ukdale :
  let d : root line := [("house_1"%string, Some [("channel_1.dat"%string, Some (Ok [(0, [Some 3])])); ("channel_2.dat"%string, Some (Ok [(0, [Some 7]); (6, [Some 8]); (6, [Some 9]); (12, [Some 8])]))])] in
  let m := [((1, 1), [RawModel.Active; RawModel.Apparent]); ((1, 2), [RawModel.Active])] in
  let mains := fun h => if h =? 1 then Ok [(0, [Some 100; Some 110; Some 240]); (1, [Some 101; Some 111; Some 240]); (2, [Some 101; Some 111; None])] else Err ValueError in
  let s := fst (convert_ukdale (sort_rows true) m mains true (Some d)) in let w := mkTF None None true false false in
  proper d /\ NoDup (map fst m) /\ convert_ukdale (sort_rows true) m mains true (Some d) = (s, None) /\
  first_of_each [(0, [Some 7]); (6, [Some 8]); (6, [Some 9]); (12, [Some 8])] [(0, [Some 7]); (6, [Some 8]); (12, [Some 8])] /\
  energy_of s 1 1 60 EnergyModel.Active w 2 = Ok (Some 201) /\ energy_of s 1 1 60 EnergyModel.Apparent w 2 = Ok (Some 221) /\
  energy_of s 1 2 60 EnergyModel.Active w 2 = Ok (Some 90).
Proof.
  split; [|split; [|split; [|split]]].
  - split; [cbn; repeat constructor; cbn; tauto|]. intros n files [H|[]]. injection H as _ <-. cbn. repeat constructor; cbn; intuition discriminate.
  - cbn. repeat constructor; cbn; intuition discriminate.
  - vm_compute. reflexivity.
  - change [(0, [Some 7]); (6, [Some 8]); (12, [Some 8])] with (drop_later [] [(0, [Some 7]); (6, [Some 8]); (6, [Some 9]); (12, [Some 8])]). apply RawProofs2.drop_later_first.
  - repeat split; vm_compute; reflexivity.
Qed.
