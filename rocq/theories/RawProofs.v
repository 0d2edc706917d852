From Coq Require Import String Ascii Sorted Permutation Lia ZArith.
From Verif Require Import Base RawModel RawSpec.
Import List. Open Scope list_scope. Open Scope nat_scope.

Lemma digit_value_iff c n : digit_value c = Some n <-> is_digit c n.
Proof.
  unfold digit_value, is_digit. split.
  - destruct ((48 <=? nat_of_ascii c) && (nat_of_ascii c <=? 57)) eqn:E; [|discriminate].
    apply andb_true_iff in E. destruct E as [E1 E2]. apply Nat.leb_le in E1. apply Nat.leb_le in E2.
    intros H. assert (Hn : n = Z.of_nat (nat_of_ascii c - 48)) by congruence. clear H. subst n. split; [lia|].
    rewrite Nat2Z.id. replace (48 + (nat_of_ascii c - 48)) with (nat_of_ascii c) by lia.
    symmetry. apply ascii_nat_embedding.
  - intros [Hn ->]. rewrite nat_ascii_embedding by lia.
    replace (48 <=? 48 + Z.to_nat n) with true by (symmetry; apply Nat.leb_le; lia).
    replace (48 + Z.to_nat n <=? 57) with true by (symmetry; apply Nat.leb_le; lia).
    cbn [andb]. f_equal. lia.
Qed.

Lemma strip_prefix_iff p s r : strip_prefix p s = Some r <-> s = (p ++ r)%string.
Proof.
  revert s; induction p as [|a p IH]; intros s; cbn [strip_prefix append].
  - split; [intros [= ->]; reflexivity|intros ->; reflexivity].
  - destruct s as [|b s]; [split; discriminate|].
    destruct (Ascii.eqb_spec a b) as [->|Hne].
    + rewrite IH. split; [intros ->; reflexivity|intros [= ->]; reflexivity].
    + split; [discriminate|intros [= -> _]; now elim Hne].
Qed.

Lemma any_then_dat_iff s : any_then_dat s = true <-> exists x, s = String x "dat".
Proof.
  destruct s as [|x r]; cbn [any_then_dat].
  - split; [discriminate|intros [x H]; discriminate H].
  - rewrite String.eqb_eq. split; [intros ->; now exists x|].
    intros [y H]. injection H as _ H. exact H.
Qed.

Lemma match_house_iff s h : match_house s = Some h <-> house_name s h.
Proof.
  unfold match_house, house_name. split.
  - destruct (strip_prefix "house_" s) as [r|] eqn:E; [|discriminate]. apply strip_prefix_iff in E.
    destruct r as [|c [|]]; try discriminate. intros H. exists c. split; [now apply digit_value_iff|exact E].
  - intros (c & Hc & E). apply strip_prefix_iff in E. rewrite E. now apply digit_value_iff.
Qed.

Lemma match_channel_iff s n : match_channel s = Some n <-> channel_name s n.
Proof.
  unfold match_channel, channel_name. split.
  - destruct (strip_prefix "channel_" s) as [r|] eqn:E; [|discriminate]. apply strip_prefix_iff in E.
    destruct r as [|a rest]; [discriminate|]. destruct (digit_value a) as [x|] eqn:Ea; [|discriminate].
    apply digit_value_iff in Ea. cbv zeta.
    assert (One : (if any_then_dat rest then Some x else None) = Some n -> exists a x : ascii, is_digit a n /\ s = ("channel_" ++ String a (String x "dat"))%string).
    { destruct (any_then_dat rest) eqn:Er; [|discriminate]. intros H. assert (x = n) by congruence. subst x.
      apply any_then_dat_iff in Er. destruct Er as [y ->]. exists a, y. split; [exact Ea|exact E]. }
    destruct rest as [|b rest']; [intros H; left; now apply One|].
    destruct (digit_value b) as [y|] eqn:Eb; [|intros H; left; now apply One].
    destruct (any_then_dat rest') eqn:Er; [|intros H; left; now apply One].
    intros H. assert (Hn : n = (10 * x + y)%Z) by congruence. right. apply digit_value_iff in Eb.
    apply any_then_dat_iff in Er. destruct Er as [z ->]. exists a, b, x, y, z. auto.
  - intros [(a & x & Ha & E)|(a & b & p & q & x & Ha & Hb & -> & E)]; apply strip_prefix_iff in E; rewrite E.
    + apply digit_value_iff in Ha. rewrite Ha. cbv zeta. destruct (digit_value x); reflexivity.
    + apply digit_value_iff in Ha. apply digit_value_iff in Hb. rewrite Ha, Hb. cbv zeta. reflexivity.
Qed.

(** Sorting integers. *)
Lemma insert_int_perm x l : Permutation (insert_int x l) (x :: l).
Proof.
  induction l as [|y l IH]; cbn; [reflexivity|]. destruct (x <=? y)%Z; [reflexivity|].
  rewrite IH. apply perm_swap.
Qed.
Lemma sort_ints_perm l : Permutation (sort_ints l) l.
Proof.
  induction l as [|x l IH]; cbn; [reflexivity|]. unfold sort_ints in IH. rewrite insert_int_perm, IH. reflexivity.
Qed.
Lemma insert_int_sorted x l : StronglySorted Z.le l -> StronglySorted Z.le (insert_int x l).
Proof.
  induction l as [|y l IH]; intros H; cbn.
  - repeat constructor.
  - destruct (StronglySorted_inv H) as [H1 H2]. destruct (Z.leb_spec x y).
    + constructor; [exact H|]. constructor; [lia|]. rewrite Forall_forall in *. intros z Hz. specialize (H2 z Hz). lia.
    + constructor; [now apply IH|]. apply Forall_forall. intros z Hz. apply (Permutation_in _ (insert_int_perm x l)) in Hz.
      destruct Hz as [<-|Hz]; [lia|]. rewrite Forall_forall in H2. now apply H2.
Qed.
Lemma sort_ints_sorted l : StronglySorted Z.le (sort_ints l).
Proof. induction l as [|x l IH]; cbn; [constructor|]. now apply insert_int_sorted. Qed.

Lemma in_matching f names n : In n (matching_ints f names) <-> exists s, In s names /\ f s = Some n.
Proof.
  unfold matching_ints. split.
  - intros H. apply (Permutation_in _ (sort_ints_perm _)) in H. apply in_flat_map in H. destruct H as (s & Hs & H).
    exists s. split; [exact Hs|]. destruct (f s); [|destruct H]. destruct H as [->|[]]. reflexivity.
  - intros (s & Hs & E). apply (Permutation_in _ (Permutation_sym (sort_ints_perm _))). apply in_flat_map.
    exists s. split; [exact Hs|]. rewrite E. now left.
Qed.

Lemma find_in {A} k (l : list (string * A)) x : NoDup (map fst l) -> (entry k l = Some x <-> In (k, x) l).
Proof.
  induction l as [|[k' y] l IH]; cbn [map fst entry]; intros Hn.
  - split; [discriminate|intros []].
  - apply NoDup_cons_iff in Hn. destruct Hn as [Hk Hn]. destruct (String.eqb_spec k k') as [->|Hne].
    + split; [intros H; left; congruence|]. intros [H|H]; [congruence|]. elim Hk. now apply (in_map fst) in H.
    + rewrite (IH Hn). split; [now right|]. intros [H|H]; [congruence|exact H].
Qed.

Lemma in_dirs {A} (l : list (string * option A)) n : In n (map fst (filter is_some l)) <-> exists x, In (n, Some x) l.
Proof.
  split.
  - intros H. apply in_map_iff in H. destruct H as ([n' o] & <- & H). apply filter_In in H. destruct H as [H E].
    destruct o as [x|]; [|discriminate]. exists x. exact H.
  - intros [x H]. apply in_map_iff. exists (n, Some x). split; [reflexivity|]. apply filter_In. now split.
Qed.

Lemma house_name_decimal s h : house_name s h <-> (0 <= h <= 9)%Z /\ s = ("house_" ++ decimal h)%string.
Proof.
  unfold house_name, is_digit, decimal. split.
  - intros (c & [Hh ->] & ->). split; [exact Hh|]. destruct (Z.ltb_spec h 10); [reflexivity|lia].
  - intros [Hh ->]. destruct (Z.ltb_spec h 10); [|lia]. exists (digit_char h). split; [|reflexivity]. now split.
Qed.

Lemma channel_name_range s n : channel_name s n -> (0 <= n <= 99)%Z.
Proof.
  intros [(a & x & [Ha _] & _)|(a & b & p & q & x & [Ha _] & [Hb _] & -> & _)]; lia.
Qed.
Lemma channel_name_decimal n : (0 <= n <= 99)%Z -> channel_name ("channel_" ++ decimal n ++ ".dat") n.
Proof.
  intros Hn. unfold decimal. destruct (Z.ltb_spec n 10).
  - left. exists (digit_char n), "."%char. split; [split; [lia|reflexivity]|reflexivity].
  - right. exists (digit_char (n / 10)), (digit_char (n mod 10)), (n / 10)%Z, (n mod 10)%Z, "."%char.
    assert (0 <= n mod 10 < 10)%Z by (apply Z.mod_pos_bound; lia).
    assert (n = 10 * (n / 10) + n mod 10)%Z by (apply Z.div_mod; lia).
    split; [split; [lia|reflexivity]|]. split; [split; [lia|reflexivity]|]. split; [assumption|reflexivity].
Qed.

Lemma strip_inj p a b : (p ++ a)%string = (p ++ b)%string -> a = b.
Proof.
  intros H. assert (E := proj2 (strip_prefix_iff p (p ++ a) a) eq_refl). rewrite H in E.
  rewrite (proj2 (strip_prefix_iff p (p ++ b) b) eq_refl) in E. congruence.
Qed.

Section S.
  Context {V : Type}.
  Implicit Types d : root V.

  Lemma in_find_all_houses d h : In h (find_all_houses d) <-> (0 <= h <= 9)%Z /\ exists files, In (("house_" ++ decimal h)%string, Some files) d.
  Proof.
    unfold find_all_houses. rewrite in_matching. split.
    - intros (s & Hs & E). apply match_house_iff in E. apply house_name_decimal in E. destruct E as [Hh ->].
      apply in_dirs in Hs. now split.
    - intros [Hh Hf]. exists ("house_" ++ decimal h)%string. split; [now apply in_dirs|].
      apply match_house_iff. now apply house_name_decimal.
  Qed.
  Lemma in_find_all_chans (files : listing V) c : In c (find_all_chans files) <-> exists cn raw, In (cn, Some raw) files /\ channel_name cn c.
  Proof.
    unfold find_all_chans. rewrite in_matching. split.
    - intros (s & Hs & E). apply match_channel_iff in E. apply in_dirs in Hs. destruct Hs as [raw Hs]. eauto.
    - intros (cn & raw & H & E). exists cn. split; [apply in_dirs; eauto|]. now apply match_channel_iff.
  Qed.

  Lemma in_channels d h c : proper d -> (In (h, c) (channels d) <-> recognised d h c).
  Proof.
    intros [Hd _]. unfold channels, recognised. rewrite in_flat_map. split.
    - intros (h' & Hh & H). apply in_find_all_houses in Hh. destruct Hh as [Hr [files Hf]].
      rewrite (proj2 (find_in _ _ _ Hd) Hf) in H. apply in_map_iff in H. destruct H as (c' & [= -> ->] & Hc).
      apply in_find_all_chans in Hc. destruct Hc as (cn & raw & Hc & Hn).
      exists ("house_" ++ decimal h)%string, files, cn, raw. split; [exact Hf|]. split; [now apply house_name_decimal|]. now split.
    - intros (hn & files & cn & raw & Hf & Hh & Hc & Hn). apply house_name_decimal in Hh. destruct Hh as [Hr ->].
      exists h. split; [apply in_find_all_houses; eauto|]. rewrite (proj2 (find_in _ _ _ Hd) Hf). apply in_map_iff.
      exists c. split; [reflexivity|]. apply in_find_all_chans. eauto.
  Qed.

  Lemma read_channel_iff d h c raw : proper d -> (forall r, channel_file d h c r -> read_channel d h c = r) /\
    (read_channel d h c = Ok raw <-> channel_file d h c (Ok raw)).
  Proof.
    intros [Hd Hfs]. assert (A : forall r, channel_file d h c r -> read_channel d h c = r).
    { intros r (files & H1 & H2). unfold read_channel. rewrite (proj2 (find_in _ _ _ Hd) H1).
      rewrite (proj2 (find_in _ _ _ (Hfs _ _ H1)) H2). reflexivity. }
    split; [exact A|]. split; [|apply A]. unfold read_channel. intros H.
    destruct (entry _ d) as [[files|]|] eqn:E1; try discriminate. apply (find_in _ _ _ Hd) in E1.
    destruct (entry _ files) as [[r|]|] eqn:E2; try discriminate. apply (find_in _ _ _ (Hfs _ _ E1)) in E2.
    exists files. split; [exact E1|]. now rewrite <- H.
  Qed.
  Lemma read_channel_none d h c : proper d -> (forall r, ~ channel_file d h c r) -> read_channel d h c = Err AssertionError.
  Proof.
    intros [Hd Hfs] H. unfold read_channel. destruct (entry _ d) as [[files|]|] eqn:E1; try reflexivity.
    apply (find_in _ _ _ Hd) in E1. destruct (entry _ files) as [[r|]|] eqn:E2; try reflexivity.
    apply (find_in _ _ _ (Hfs _ _ E1)) in E2. elim (H r). now exists files.
  Qed.

  (** The store. *)
  Lemma key_eqb_eq a b : key_eqb a b = true <-> a = b.
  Proof.
    destruct a, b. unfold key_eqb. cbn [fst snd]. rewrite andb_true_iff, !Z.eqb_eq.
    split; [intros [-> ->]; reflexivity|intros [= -> ->]; auto].
  Qed.
  Lemma get_put (s : store V) k t k' : get (put s k t) k' = if key_eqb k' k then Some t else get s k'.
  Proof.
    induction s as [|[k1 t1] s IH]; cbn [put get]; [reflexivity|].
    destruct (key_eqb k k1) eqn:E1; cbn [get].
    - apply key_eqb_eq in E1. subst k1. destruct (key_eqb k' k); reflexivity.
    - rewrite IH. destruct (key_eqb k' k1) eqn:E2; [|reflexivity].
      destruct (key_eqb k' k) eqn:E3; [|reflexivity]. apply key_eqb_eq in E2. apply key_eqb_eq in E3. subst.
      rewrite (proj2 (key_eqb_eq k1 k1) eq_refl) in E1. discriminate.
  Qed.

  Lemma write_all_ok f keys (s s' : store V) :
    write_all f keys s = (s', None) ->
    (forall k, In k keys -> exists t, f k = Ok t) /\
    (forall k, In k keys -> forall t, get s' k = Some t <-> f k = Ok t) /\ (forall k, ~ In k keys -> get s' k = get s k).
  Proof.
    revert s; induction keys as [|k keys IH]; intros s; cbn [write_all].
    - intros [= ->]. split; [intros ? []|]. split; [intros ? []|reflexivity].
    - destruct (f k) as [t|e] eqn:E; [|discriminate]. intros H. destruct (IH _ H) as (I1 & I2 & I3).
      split; [|split].
      + intros k' [<-|H']; [now exists t|now apply I1].
      + intros k' [<-|H'] u; [|now apply I2].
        destruct (in_dec (fun x y => match bool_dec (key_eqb x y) true with left e => left (proj1 (key_eqb_eq x y) e) | right n => right (fun e => n (proj2 (key_eqb_eq x y) e)) end) k keys) as [Hi|Hi].
        * now apply I2.
        * rewrite (I3 _ Hi), get_put, (proj2 (key_eqb_eq k k) eq_refl), E. split; congruence.
      + intros k' H'. rewrite I3 by (intros X; apply H'; now right). rewrite get_put.
        destruct (key_eqb k' k) eqn:E'; [|reflexivity]. apply key_eqb_eq in E'. elim H'. now left.
  Qed.
  Lemma write_all_succeeds f keys (s : store V) : snd (write_all f keys s) = None <-> forall k, In k keys -> exists t, f k = Ok t.
  Proof.
    split.
    - intros H. destruct (write_all f keys s) as [s' o] eqn:E. cbn in H. subst o. apply write_all_ok in E. apply E.
    - revert s; induction keys as [|k keys IH]; intros s H; cbn [write_all]; [reflexivity|].
      destruct (H k (or_introl eq_refl)) as [t ->]. apply IH. intros k' Hk. apply H. now right.
  Qed.
  Lemma write_all_err f keys (s s' : store V) e :
    write_all f keys s = (s', Some e) -> exists k1 k k2, keys = k1 ++ k :: k2 /\ f k = Err e /\ write_all f k1 s = (s', None).
  Proof.
    revert s; induction keys as [|k keys IH]; intros s; cbn [write_all]; [discriminate|].
    destruct (f k) as [t|e'] eqn:E.
    - intros H. destruct (IH _ H) as (k1 & k0 & k2 & -> & F & W). exists (k :: k1), k0, k2. split; [reflexivity|].
      split; [exact F|]. cbn [write_all]. now rewrite E.
    - intros [= -> ->]. exists [], k, keys. cbn. auto.
  Qed.

  (** The order of the channels. *)
  Lemma NoDup_houses d : NoDup (map fst d) -> NoDup (find_all_houses d).
  Proof.
    intros H. unfold find_all_houses, matching_ints. apply (Permutation_NoDup (Permutation_sym (sort_ints_perm _))).
    induction d as [|[n o] d IH]; cbn [filter map flat_map]; [constructor|].
    cbn [map fst] in H. apply NoDup_cons_iff in H. destruct H as [H1 H2]. specialize (IH H2).
    destruct o as [files|]; cbn [is_some snd]; [|exact IH]. cbn [map flat_map fst].
    destruct (match_house n) as [h|] eqn:E; [|exact IH]. cbn [List.app]. constructor; [|exact IH].
    intros Hh. apply in_flat_map in Hh. destruct Hh as (s & Hs & Hh). destruct (match_house s) as [h'|] eqn:E'; [|destruct Hh].
    destruct Hh as [->|[]]. apply match_house_iff in E. apply match_house_iff in E'. apply house_name_decimal in E. apply house_name_decimal in E'.
    destruct E as [_ ->]. destruct E' as [_ ->]. apply in_dirs in Hs. destruct Hs as [x Hs]. apply H1. now apply (in_map fst) in Hs.
  Qed.

  Definition upto (a b : Z * Z) : Prop := (fst a < fst b)%Z \/ (fst a = fst b /\ snd a <= snd b)%Z.
  Lemma sorted_app {A} (R : A -> A -> Prop) l1 l2 : StronglySorted R l1 -> StronglySorted R l2 -> (forall x y, In x l1 -> In y l2 -> R x y) -> StronglySorted R (l1 ++ l2).
  Proof.
    induction l1 as [|x l1 IH]; intros H1 H2 H; cbn; [exact H2|]. destruct (StronglySorted_inv H1) as [H3 H4].
    constructor; [apply IH; [exact H3|exact H2|]|].
    - intros a b Ha Hb. apply H; [now right|exact Hb].
    - apply Forall_app. split; [exact H4|]. apply Forall_forall. intros y Hy. apply H; [now left|exact Hy].
  Qed.
  Lemma channels_sorted d : NoDup (map fst d) -> StronglySorted upto (channels d).
  Proof.
    intros Hd. unfold channels. assert (N := NoDup_houses d Hd). assert (S1 : StronglySorted Z.le (find_all_houses d)) by apply sort_ints_sorted.
    induction (find_all_houses d) as [|h hs IH]; cbn [flat_map]; [constructor|].
    destruct (StronglySorted_inv S1) as [S2 S3]. apply NoDup_cons_iff in N. destruct N as [N1 N2].
    apply sorted_app; [|now apply IH|].
    - destruct (entry _ d) as [[files|]|]; try constructor. assert (S4 : StronglySorted Z.le (find_all_chans files)) by apply sort_ints_sorted.
      induction (find_all_chans files) as [|c cs IHc]; cbn [map]; [constructor|]. destruct (StronglySorted_inv S4) as [S5 S6].
      constructor; [now apply IHc|]. apply Forall_forall. intros x Hx. apply in_map_iff in Hx. destruct Hx as (c' & <- & Hc).
      right. cbn. split; [reflexivity|]. rewrite Forall_forall in S6. now apply S6.
    - intros x y Hx Hy. destruct (entry _ d) as [[files|]|]; [|destruct Hx|destruct Hx]. apply in_map_iff in Hx. destruct Hx as (c & <- & _).
      apply in_flat_map in Hy. destruct Hy as (h' & Hh & Hy). left. cbn [fst].
      assert (fst y = h') as ->.
      { destruct (entry _ d) as [[files'|]|]; [|destruct Hy|destruct Hy]. apply in_map_iff in Hy. destruct Hy as (c' & <- & _). reflexivity. }
      rewrite Forall_forall in S3. specialize (S3 _ Hh). assert (h <> h') by (intros ->; now elim N1). lia.
  Qed.
End S.
