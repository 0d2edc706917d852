(** Proofs for PathSpec. *)
From Coq Require Import Sorted Permutation Lia.
From Verif Require Import Base TimeFrameModel TimeFrameSpec StoreModel StoreSpec StoreProofs StoreProofs2 EnergyModel EnergySpec EnergyProofs WholeModel WholeSpec WholeProofs RawModel RawSpec RawProofs RawProofs2 PathModel PathSpec.
Import List. Open Scope Z_scope.

Lemma sorted_distinct {A} (l : list (sample A)) : StronglySorted Z.le (map fst l) -> NoDup (map fst l) -> increasing l.
Proof.
  intros S N. apply increasing_sorted. induction l as [|x l IH]; [constructor|]. cbn [map] in S, N.
  apply StronglySorted_inv in S. destruct S as [S F]. apply NoDup_cons_iff in N. destruct N as [N1 N2]. constructor; [apply IH; assumption|].
  rewrite Forall_forall in *. intros y Hy. unfold slt.
  pose proof (F (fst y) (in_map fst _ _ Hy)). assert (fst x <> fst y) by (intros E; apply N1; rewrite E; apply in_map; exact Hy). lia.
Qed.
Lemma timeline_unique {A} (l l' : list (sample A)) : Permutation l l' -> increasing l -> increasing l' -> l = l'.
Proof.
  intros P H H'. apply increasing_sorted in H. apply increasing_sorted in H'. revert l' P H'. induction l as [|x l IH]; intros l' P H'.
  - apply Permutation_nil in P. symmetry. exact P.
  - destruct l' as [|y l']; [apply Permutation_sym, Permutation_nil in P; discriminate|].
    apply StronglySorted_inv in H. destruct H as [H F]. apply StronglySorted_inv in H'. destruct H' as [H' F']. rewrite Forall_forall in F, F'. unfold slt in F, F'.
    assert (E : x = y).
    { assert (I1 : In x (y :: l')) by (apply (Permutation_in _ P); left; reflexivity). assert (I2 : In y (x :: l)) by (apply (Permutation_in _ (Permutation_sym P)); left; reflexivity).
      destruct I1 as [->|I1]; [reflexivity|]. destruct I2 as [->|I2]; [reflexivity|]. specialize (F y I2). specialize (F' x I1). lia. }
    subst y. f_equal. apply IH; [exact H|apply Permutation_cons_inv in P; exact P|exact H'].
Qed.

Lemma keep_unique {V} (l : rows V) (k k' : list bool) : length k = length l -> length k' = length l ->
  (forall i r b, nth_error l i = Some r -> nth_error k i = Some b -> (b = true <-> forall j r', (j < i)%nat -> nth_error l j = Some r' -> fst r' <> fst r)) ->
  (forall i r b, nth_error l i = Some r -> nth_error k' i = Some b -> (b = true <-> forall j r', (j < i)%nat -> nth_error l j = Some r' -> fst r' <> fst r)) -> k = k'.
Proof.
  intros L L' H H'. apply nth_ext with (d := false) (d' := false); [congruence|]. intros i Hi.
  assert (Hl : exists r, nth_error l i = Some r).
  { destruct (nth_error l i) as [r|] eqn:E; [exists r; reflexivity|]. apply nth_error_None in E. lia. }
  destruct Hl as [r Hr]. assert (Hi' : (i < length k')%nat) by (rewrite L'; rewrite <- L; exact Hi).
  pose proof (H i r _ Hr (nth_error_nth' k false Hi)) as K. pose proof (H' i r _ Hr (nth_error_nth' k' false Hi')) as K'.
  destruct (nth i k false), (nth i k' false); try reflexivity; [symmetry; apply K'; apply K; reflexivity|apply K; apply K'; reflexivity].
Qed.
Lemma first_unique {V} (l out : rows V) : first_of_each l out -> out = drop_later [] l.
Proof.
  intros (k & L & E & H). destruct (drop_later_first l) as (k' & L' & E' & H'). rewrite E, E'. rewrite (keep_unique l k k' L L' H H'). reflexivity.
Qed.
Lemma drop_later_in {V} (l : rows V) seen x : In x (drop_later seen l) -> In x l /\ ~ In (fst x) seen.
Proof.
  revert seen. induction l as [|r l IH]; intros seen; cbn [drop_later]; [intros []|].
  destruct (existsb (Z.eqb (fst r)) seen) eqn:E.
  - intros H. destruct (IH _ H) as [H1 H2]. split; [right; exact H1|exact H2].
  - intros [<-|H].
    + split; [left; reflexivity|]. intros Hs. assert (existsb (Z.eqb (fst r)) seen = true); [|congruence].
      apply existsb_exists. exists (fst r). split; [exact Hs|apply Z.eqb_refl].
    + destruct (IH _ H) as [H1 H2]. split; [right; exact H1|]. intros Hs. apply H2. right. exact Hs.
Qed.
Lemma drop_later_increasing {V} (l : rows V) seen : StronglySorted Z.le (map fst l) -> increasing (drop_later seen l).
Proof.
  intros S. apply increasing_sorted. revert seen. induction l as [|r l IH]; intros seen; cbn [drop_later]; [constructor|].
  cbn [map] in S. apply StronglySorted_inv in S. destruct S as [S F]. destruct (existsb (Z.eqb (fst r)) seen); [apply IH; exact S|].
  constructor; [apply IH; exact S|]. rewrite Forall_forall in *. intros y Hy. destruct (drop_later_in _ _ _ Hy) as [H1 H2]. unfold slt.
  pose proof (F (fst y) (in_map fst _ _ H1)). assert (fst r <> fst y) by (intros E; apply H2; left; exact E). lia.
Qed.

Section R.
Context (sorter : rows line -> rows line) (d : root line) (s : RawModel.store line).
Hypothesis (Hs : sorts sorter) (Hp : proper d).

Lemma redd_table h c r l : convert_redd sorter (Some d) = (s, None) -> 1 <= h <= 9 -> 1 <= c <= 99 -> channel_file d h c (Ok r) -> timeline r l ->
  get s (h, c) = Some ([(RawModel.Power, Some (if c <=? 2 then RawModel.Apparent else RawModel.Active))], l).
Proof.
  intros E Hh Hc Hf [P I]. destruct (redd_lemma sorter d s Hs Hp E h c) as [K _]. destruct (K (Ok r) Hh Hc Hf) as (r' & l' & Er & G & P' & S').
  injection Er as <-. rewrite G. do 3 f_equal. apply timeline_unique; [|apply sorted_distinct|exact I].
  - apply Permutation_trans with r; [exact P'|apply Permutation_sym; exact P].
  - exact S'.
  - apply (Permutation_NoDup (l := map fst l)).
    + apply Permutation_map. apply Permutation_trans with r; [exact P|apply Permutation_sym; exact P'].
    + clear -I. apply increasing_sorted in I. induction I as [|x l I IH F]; constructor; [|exact IH]. intros H. apply in_map_iff in H. destruct H as (y & E & Hy).
      rewrite Forall_forall in F. specialize (F y Hy). unfold slt in F. lia.
Qed.
Lemma one_column a : uses_column [(EnergyModel.Power, Some a)] a EnergyModel.Power 0.
Proof. split; [reflexivity|]. split; [constructor; [intros []|constructor]|]. right; right. split; [reflexivity|]. split; intros [H|[]]; discriminate. Qed.

Lemma redd_energy h c r l msp window csize e : convert_redd sorter (Some d) = (s, None) -> 1 <= h <= 9 -> 1 <= c <= 99 -> channel_file d h c (Ok r) ->
  timeline r l -> 0 <= msp -> (1 <= csize)%nat -> file_energy msp 0 l window e ->
  energy_of s h c msp (if c <=? 2 then EnergyModel.Apparent else EnergyModel.Active) window csize = Ok (Some e).
Proof.
  intros E Hh Hc Hf T Hm Hcs (m & x & W & L & R & En). unfold energy_of. rewrite (redd_table h c r l E Hh Hc Hf T).
  apply (energy_whole _ msp _ 0 l window m x e csize Hm); try assumption; [|exact (proj2 T)].
  cbn [map column_of fst snd option_map]. destruct (c <=? 2); apply one_column.
Qed.
End R.

Lemma redd_order sorter d d' s s' h c r r' : sorts sorter -> proper d -> proper d' -> convert_redd sorter (Some d) = (s, None) -> convert_redd sorter (Some d') = (s', None) ->
  1 <= h <= 9 -> 1 <= c <= 99 -> channel_file d h c (Ok r) -> channel_file d' h c (Ok r') -> Permutation r r' -> NoDup (map fst r) ->
  forall msp a window csize, energy_of s h c msp a window csize = energy_of s' h c msp a window csize.
Proof.
  intros Hs Hp Hp' E E' Hh Hc Hf Hf' P N msp a window csize.
  assert (T : timeline r (sorter r)).
  { destruct (Hs r) as [S1 S2]. split; [exact S1|]. apply sorted_distinct; [exact S2|]. apply (Permutation_NoDup (l := map fst r)); [apply Permutation_map, Permutation_sym; exact S1|exact N]. }
  assert (T' : timeline r' (sorter r)) by (split; [apply Permutation_trans with r; [exact (proj1 T)|exact P]|exact (proj2 T)]).
  unfold energy_of. rewrite (redd_table sorter d s Hs Hp h c r _ E Hh Hc Hf T), (redd_table sorter d' s' Hs Hp' h c r' _ E' Hh Hc Hf' T'). reflexivity.
Qed.

Section U.
Context (sorter : rows line -> rows line) (m : ac_map) (mains : Z -> res (rows line)) (d : root line) (s : RawModel.store line).
Hypothesis (Hm : NoDup (map fst m)) (Hp : proper d) (E : convert_ukdale sorter m mains true (Some d) = (s, None)).
Lemma ukdale_energy h c t ts r l msp window csize e : In ((h, c), t :: ts) m -> t :: ts <> [RawModel.Active; RawModel.Apparent] ->
  1 <= h <= 9 -> 1 <= c <= 99 -> channel_file d h c (Ok r) -> StronglySorted Z.le (map fst r) -> first_of_each r l ->
  0 <= msp -> (1 <= csize)%nat -> file_energy msp 0 l window e ->
  energy_of s h c msp (type_of t) window csize = Ok (Some e).
Proof.
  intros Hin Hne Hh Hc Hf S F Hmsp Hcs (w & x & W & L & R & En).
  destruct (ukdale_lemma sorter m mains true d s Hm Hp E h c) as (_ & K & _).
  destruct (K (Ok r) (t :: ts) Hh Hc Hf Hin Hne) as (t' & ts' & r' & l' & Et & Er & G & A). injection Et as <- <-. injection Er as <-. cbn [as_asked] in A.
  unfold energy_of. rewrite G. apply first_unique in F. apply first_unique in A. rewrite F in W. rewrite <- A in W.
  apply (energy_whole _ msp _ 0 l' window w x e csize Hmsp); try assumption; [apply one_column|]. rewrite A. apply drop_later_increasing. exact S.
Qed.
Lemma ukdale_mains_energy h c r l k a msp window csize e : In ((h, c), [RawModel.Active; RawModel.Apparent]) m ->
  mains h = Ok r -> StronglySorted Z.le (map fst r) -> first_of_each r l ->
  (k = 0%nat /\ a = EnergyModel.Active \/ k = 1%nat /\ a = EnergyModel.Apparent) -> 0 <= msp -> (1 <= csize)%nat -> file_energy msp k l window e ->
  energy_of s h c msp a window csize = Ok (Some e).
Proof.
  intros Hin Er S F Hk Hmsp Hcs (w & x & W & L & R & En).
  destruct (ukdale_lemma sorter m mains true d s Hm Hp E h c) as (K & _). destruct (K Hin) as (r' & l' & Er' & G & A). rewrite Er in Er'. injection Er' as <-. cbn [as_asked] in A.
  unfold energy_of. rewrite G. apply first_unique in F. apply first_unique in A. rewrite F in W. rewrite <- A in W.
  apply (energy_whole _ msp _ k l' window w x e csize Hmsp); try assumption; [|rewrite A; apply drop_later_increasing; exact S].
  cbn [map column_of fst snd option_map type_of].
  destruct Hk as [[-> ->]|[-> ->]]; (split; [reflexivity|]; split; [repeat constructor; cbn; intuition discriminate|]; right; right; split; [reflexivity|]; split; cbn; intuition discriminate).
Qed.
End U.

(** A constant load. *)
Lemma steady_joules msp p (l : list (sample line)) : increasing l -> steady msp p l -> forall lo hi, first_time l lo -> last_time l hi ->
  exists s, readings 0 l s /\ joules s msp = p * (hi - lo).
Proof.
  induction l as [|a l IH]; intros I S lo hi F L; [destruct F as (x & r & [=] & _)|].
  cbn [steady] in S. destruct S as (Sa & Sg & S). destruct F as (x & r & Er & <-). injection Er as <- <-.
  destruct l as [|b l].
  - exists [(fst a, p)]. split; [constructor; [|constructor]; rewrite Sa; split; reflexivity|].
    destruct L as (y & q & E & <-). destruct q as [|z [|? q]]; cbn in E; try discriminate. injection E as <-. cbn. lia.
  - cbn [increasing] in I. destruct I as [Iab I].
    assert (L' : last_time (b :: l) hi).
    { destruct L as (y & q & E & <-). destruct q as [|z q]; [discriminate|]. injection E as <- E. exists y, q. split; [exact E|reflexivity]. }
    destruct (IH I S (fst b) hi (ex_intro _ b (ex_intro _ l (conj eq_refl eq_refl))) L') as (s & R & J).
    exists ((fst a, p) :: s). split; [constructor; [rewrite Sa; split; reflexivity|exact R]|].
    inversion R as [|? [tb vb] ? s' [H1 H2] R']; subst. cbn [fst] in H1. subst tb.
    assert (Ij : joules ((fst a, p) :: (fst b, vb) :: s') msp = Z.min (fst b - fst a) msp * p + joules ((fst b, vb) :: s') msp) by reflexivity.
    rewrite Ij, J. rewrite Z.min_l by lia. lia.
Qed.
Lemma readings_increasing k (l : list (sample line)) s : readings k l s -> increasing l -> increasing s.
Proof.
  induction 1 as [|a x l s [E _] H IH]; intros I; [exact Logic.I|]. destruct H as [|b y l s [E' _] H]; [exact Logic.I|].
  cbn [increasing] in *. destruct I as [I1 I2]. split; [lia|apply IH; exact I2].
Qed.
Lemma all_within {A} (window : tf) (l : list (sample A)) : (forall x, In x l -> within window (fst x)) -> rows_within window l l.
Proof.
  intros H. unfold rows_within. induction l as [|x l IH]; [constructor|]. apply filt_keep; [apply H; left; reflexivity|]. apply IH. intros y Hy. apply H. right. exact Hy.
Qed.
Lemma steady_energy msp p (l : list (sample line)) window lo hi : 0 <= msp -> increasing l -> steady msp p l -> (2 <= length l)%nat ->
  (forall x, In x l -> within window (fst x)) -> first_time l lo -> last_time l hi -> file_energy msp 0 l window (p * (hi - lo)).
Proof.
  intros Hm I S L W F Hl. destruct (steady_joules msp p l I S lo hi F Hl) as (s & R & J).
  exists l, s. split; [apply all_within; exact W|]. split; [exact L|]. split; [exact R|]. rewrite <- J. apply joules_is_energy; [exact Hm|].
  exact (readings_increasing 0 l s R I).
Qed.
Lemma redd_missing sorter d s h c msp a window csize : sorts sorter -> proper d -> convert_redd sorter (Some d) = (s, None) ->
  (forall raw, ~ channel_file d h c raw) -> energy_of s h c msp a window csize = Err KeyError.
Proof.
  intros Hs Hp E H. destruct (redd_lemma sorter d s Hs Hp E h c) as [_ K]. unfold energy_of. rewrite (K (or_introl H)). reflexivity.
Qed.
