From Coq Require Import String Ascii Sorted Permutation Lia ZArith.
From Verif Require Import Base RawModel RawSpec RawProofs.
Import List. Open Scope list_scope. Open Scope nat_scope.

Section S.
  Context {V : Type}.
  Implicit Types d : root V.

  (** Rows kept. *)
  Fixpoint keeps (seen : list Z) (l : rows V) : list bool :=
    match l with
    | [] => []
    | r :: l => if existsb (Z.eqb (fst r)) seen then false :: keeps seen l else true :: keeps (fst r :: seen) l
    end.
  Lemma keeps_length seen l : length (keeps seen l) = length l.
  Proof. revert seen; induction l as [|r l IH]; intros seen; cbn; [reflexivity|]. destruct (existsb _ seen); cbn; now rewrite IH. Qed.
  Lemma keeps_drop seen l : drop_later seen l = map snd (filter fst (combine (keeps seen l) l)).
  Proof.
    revert seen; induction l as [|r l IH]; intros seen; cbn [keeps drop_later]; [reflexivity|].
    destruct (existsb _ seen); cbn; now rewrite IH.
  Qed.
  Lemma existsb_in x seen : existsb (Z.eqb x) seen = true <-> In x seen.
  Proof.
    rewrite existsb_exists. split.
    - intros (y & Hy & E). apply Z.eqb_eq in E. now subst.
    - intros H. exists x. split; [exact H|apply Z.eqb_refl].
  Qed.
  Lemma keeps_nth seen l i r b : nth_error l i = Some r -> nth_error (keeps seen l) i = Some b ->
    (b = true <-> ~ In (fst r) seen /\ forall j r', j < i -> nth_error l j = Some r' -> fst r' <> fst r).
  Proof.
    revert seen i; induction l as [|r0 l IH]; intros seen i; [destruct i; discriminate|].
    cbn [keeps]. destruct (existsb (Z.eqb (fst r0)) seen) eqn:E.
    - apply existsb_in in E. destruct i as [|i]; cbn [nth_error].
      + intros [= ->] [= <-]. split; [discriminate|]. intros [H _]. now elim H.
      + intros Hr Hb. rewrite (IH _ _ Hr Hb). split; intros [H1 H2]; (split; [exact H1|]).
        * intros [|j] r' Hj; cbn [nth_error]; [intros [= <-] Eq; rewrite Eq in E; now elim H1|]. apply H2. lia.
        * intros j r' Hj Hn. apply (H2 (S j)); [lia|exact Hn].
    - assert (~ In (fst r0) seen) as Hn by (intros H; apply existsb_in in H; congruence).
      destruct i as [|i]; cbn [nth_error].
      + intros [= ->] [= <-]. split; [|reflexivity]. intros _. split; [exact Hn|]. intros j r' Hj. lia.
      + intros Hr Hb. rewrite (IH _ _ Hr Hb). cbn [In]. split.
        * intros [H1 H2]. split; [tauto|]. intros [|j] r' Hj; cbn [nth_error]; [intros [= <-] Eq; now elim H1; left|]. apply H2. lia.
        * intros [H1 H2]. split.
          -- intros [Eq|H]; [|now elim H1]. now apply (H2 0 r0 ltac:(lia) eq_refl).
          -- intros j r' Hj Hn'. apply (H2 (S j)); [lia|exact Hn'].
  Qed.
  Lemma drop_later_first (l : rows V) : first_of_each l (drop_later [] l).
  Proof.
    exists (keeps [] l). split; [apply keeps_length|]. split; [apply keeps_drop|].
    intros i r b Hr Hb. rewrite (keeps_nth [] l i r b Hr Hb). split; [intros [_ H]; exact H|]. intros H. split; [intros []|exact H].
  Qed.

  Lemma convert_channel_iff mapping so dd sorter d h c t : proper d ->
    (convert_channel sorter mapping so dd d h c = Ok t <->
     (1 <= h)%Z /\ (1 <= c)%Z /\ exists m raw, mapping h c = Ok m /\ channel_file d h c (Ok raw) /\ t = (m, clean sorter so dd raw)).
  Proof.
    intros Hd. unfold convert_channel, check_key. destruct (Z.leb_spec 1 h); cbn [andb bind]; [|split; [discriminate|lia]].
    destruct (Z.leb_spec 1 c); cbn [bind]; [|split; [discriminate|lia]].
    destruct (mapping h c) as [m|e] eqn:Em; cbn [bind].
    - destruct (read_channel d h c) as [raw|e] eqn:Er; cbn [bind].
      + split.
        * intros [= <-]. split; [lia|]. split; [lia|]. exists m, raw. split; [reflexivity|]. split; [|reflexivity].
          now apply (read_channel_iff d h c raw Hd).
        * intros (_ & _ & m' & raw' & [= <-] & Hf & ->). apply (proj2 (read_channel_iff d h c raw' Hd)) in Hf. rewrite Er in Hf. injection Hf as ->. reflexivity.
      + split; [discriminate|]. intros (_ & _ & m' & raw' & _ & Hf & _). apply (proj2 (read_channel_iff d h c raw' Hd)) in Hf. rewrite Er in Hf. discriminate.
    - split; [discriminate|]. intros (_ & _ & m' & raw' & [=] & _).
  Qed.

  Lemma channel_file_recognised d h c raw : (0 <= h <= 9)%Z -> (0 <= c <= 99)%Z -> channel_file d h c raw -> recognised d h c.
  Proof.
    intros Hh Hc (files & H1 & H2). exists ("house_" ++ decimal h)%string, files, ("channel_" ++ decimal c ++ ".dat")%string, raw.
    split; [exact H1|]. split; [now apply house_name_decimal|]. split; [exact H2|]. now apply channel_name_decimal.
  Qed.
  Lemma recognised_range d h c : recognised d h c -> (0 <= h <= 9)%Z /\ (0 <= c <= 99)%Z.
  Proof.
    intros (hn & files & cn & raw & _ & H1 & _ & H2). apply house_name_decimal in H1. apply channel_name_range in H2. tauto.
  Qed.

  Lemma convert_ok mapping so dd sorter d s : proper d ->
    convert sorter mapping so dd (Some d) [] = (s, None) ->
    (forall h c, recognised d h c -> exists t, convert_channel sorter mapping so dd d h c = Ok t) /\
    (forall h c t, get s (h, c) = Some t <-> recognised d h c /\ convert_channel sorter mapping so dd d h c = Ok t).
  Proof.
    intros Hd H. cbn [convert] in H. apply write_all_ok in H. destruct H as (H1 & H2 & H3). split.
    - intros h c Hr. apply (in_channels d h c Hd) in Hr. exact (H1 _ Hr).
    - intros h c t. split.
      + intros G. destruct (in_dec (fun x y => match bool_dec (key_eqb x y) true with left e => left (proj1 (key_eqb_eq x y) e) | right n => right (fun e => n (proj2 (key_eqb_eq x y) e)) end) (h, c) (channels d)) as [Hi|Hi].
        * split; [now apply (in_channels d h c Hd)|]. apply (H2 _ Hi). exact G.
        * rewrite (H3 _ Hi) in G. discriminate.
      + intros [Hr E]. apply (in_channels d h c Hd) in Hr. apply (H2 _ Hr). exact E.
  Qed.

  Lemma redd_lemma sorter d s : sorts sorter -> proper d -> convert_redd sorter (Some d) = (s, None) ->
    forall h c,
      (forall raw, (1 <= h <= 9)%Z -> (1 <= c <= 99)%Z -> channel_file d h c raw ->
        exists r l, raw = Ok r /\ get s (h, c) = Some ([(Power, Some (if (c <=? 2)%Z then Apparent else Active))], l) /\
          Permutation l r /\ StronglySorted Z.le (map fst l)) /\
      ((forall raw, ~ channel_file d h c raw) \/ ~ (1 <= h <= 9)%Z \/ ~ (1 <= c <= 99)%Z -> get s (h, c) = None).
  Proof.
    intros Hs Hd H h c. unfold convert_redd in H. destruct (convert_ok _ _ _ _ _ _ Hd H) as [H1 H2]. split.
    - intros raw Hh Hc Hf. assert (Hr := channel_file_recognised d h c raw ltac:(lia) ltac:(lia) Hf).
      destruct (H1 _ _ Hr) as [t Ht]. assert (G := proj2 (H2 h c t) (conj Hr Ht)).
      apply (convert_channel_iff _ _ _ _ _ _ _ _ Hd) in Ht. destruct Ht as (_ & _ & m & r & Em & Hf' & ->).
      assert (raw = Ok r) as ->. { rewrite <- (proj1 (read_channel_iff d h c r Hd) _ Hf). now apply (read_channel_iff d h c r Hd). }
      exists r, (sorter r). split; [reflexivity|]. unfold redd_mapping in Em. injection Em as <-. split; [exact G|]. apply Hs.
    - intros Hn. destruct (get s (h, c)) as [t|] eqn:G; [|reflexivity]. exfalso. apply H2 in G. destruct G as [Hr Ht].
      apply (convert_channel_iff _ _ _ _ _ _ _ _ Hd) in Ht. destruct Ht as (Hh & Hc & m & r & _ & Hf & _).
      apply recognised_range in Hr. destruct Hn as [Hn|[Hn|Hn]]; [now apply (Hn (Ok r))|lia|lia].
  Qed.

  Lemma redd_succeeds sorter d : proper d ->
    (snd (convert_redd sorter (Some d)) = None <->
     forall h c, recognised d h c -> (1 <= h)%Z /\ (1 <= c)%Z /\ exists r, channel_file d h c (Ok r)).
  Proof.
    intros Hd. unfold convert_redd, convert. rewrite write_all_succeeds. split.
    - intros H h c Hr. apply (in_channels d h c Hd) in Hr. destruct (H _ Hr) as [t Ht]. cbn [fst snd] in Ht.
      apply (convert_channel_iff _ _ _ _ _ _ _ _ Hd) in Ht. destruct Ht as (Hh & Hc & m & r & _ & Hf & _). eauto.
    - intros H [h c] Hi. apply (in_channels d h c Hd) in Hi. destruct (H _ _ Hi) as (Hh & Hc & r & Hf).
      eexists. cbn [fst snd]. apply (convert_channel_iff _ _ _ _ _ _ _ _ Hd). split; [exact Hh|]. split; [exact Hc|].
      unfold redd_mapping. eauto.
  Qed.

  Lemma redd_interrupted sorter d s e : sorts sorter -> proper d -> convert_redd sorter (Some d) = (s, Some e) ->
    exists h c, recognised d h c /\
      ((e = AssertionError /\ ((h < 1)%Z \/ (c < 1)%Z \/ forall raw, ~ channel_file d h c raw)) \/ channel_file d h c (Err e)) /\
      forall h' c',
        (recognised d h' c' -> before (h', c') (h, c) -> exists r l, channel_file d h' c' (Ok r) /\
           get s (h', c') = Some ([(Power, Some (if (c' <=? 2)%Z then Apparent else Active))], l) /\ Permutation l r /\ StronglySorted Z.le (map fst l)) /\
        (forall t, get s (h', c') = Some t -> recognised d h' c' /\ before (h', c') (h, c)).
  Proof.
    intros Hs Hd H. unfold convert_redd in H. cbn [convert] in H. apply write_all_err in H.
    destruct H as (k1 & [h c] & k2 & Ek & Ef & W). exists h, c. cbn [fst snd] in Ef.
    assert (Hr : recognised d h c). { apply (in_channels d h c Hd). rewrite Ek. apply in_or_app. right. now left. }
    split; [exact Hr|]. split.
    { unfold convert_channel, check_key in Ef. destruct (Z.leb_spec 1 h); cbn [andb bind] in Ef; [|left; split; [congruence|lia]].
      destruct (Z.leb_spec 1 c); cbn [bind] in Ef; [|left; split; [congruence|lia]].
      unfold redd_mapping in Ef. cbn [bind] in Ef. destruct (read_channel d h c) as [r|e'] eqn:Er; cbn [bind] in Ef; [discriminate|].
      assert (e' = e) by congruence. subst e'. unfold read_channel in Er. destruct Hd as [Hd Hfs].
      destruct (entry _ d) as [[files|]|] eqn:E1.
      - apply (find_in _ _ _ Hd) in E1. destruct (entry _ files) as [[r|]|] eqn:E2.
        + apply (find_in _ _ _ (Hfs _ _ E1)) in E2. subst r. right. now exists files.
        + left. split; [congruence|]. right; right. intros raw (f' & F1 & F2).
          apply (find_in _ _ _ Hd) in F1. apply (find_in _ _ _ Hd) in E1. rewrite E1 in F1. assert (f' = files) by congruence. subst f'.
          apply (find_in _ _ _ Hd) in E1. apply (find_in _ _ _ (Hfs _ _ E1)) in F2. congruence.
        + left. split; [congruence|]. right; right. intros raw (f' & F1 & F2).
          apply (find_in _ _ _ Hd) in F1. apply (find_in _ _ _ Hd) in E1. rewrite E1 in F1. assert (f' = files) by congruence. subst f'.
          apply (find_in _ _ _ Hd) in E1. apply (find_in _ _ _ (Hfs _ _ E1)) in F2. congruence.
      - left. split; [congruence|]. right; right. intros raw (f' & F1 & F2). apply (find_in _ _ _ Hd) in F1. congruence.
      - left. split; [congruence|]. right; right. intros raw (f' & F1 & F2). apply (find_in _ _ _ Hd) in F1. congruence. }
    assert (St := channels_sorted d (proj1 Hd)). rewrite Ek in St. apply write_all_ok in W. destruct W as (W1 & W2 & W3).
    assert (B1 : forall x, In x k1 -> upto x (h, c)).
    { clear - St. induction k1 as [|y k1 IH]; intros x; [intros []|]. cbn [List.app] in St. destruct (StronglySorted_inv St) as [S1 S2].
      intros [->|Hx]; [|now apply IH]. rewrite Forall_forall in S2. apply S2. apply in_or_app. right. now left. }
    assert (B2 : forall x, In x k2 -> upto (h, c) x).
    { clear - St. induction k1 as [|y k1 IH]; intros x; cbn [List.app] in St; destruct (StronglySorted_inv St) as [S1 S2].
      - rewrite Forall_forall in S2. apply S2.
      - now apply IH. }
    assert (B3 : ~ In (h, c) k1). { intros Hi. destruct (W1 _ Hi) as [t Ht]. cbn [fst snd] in Ht. congruence. }
    intros h' c'. split.
    - intros Hr' Hb. apply (in_channels d h' c' Hd) in Hr'. rewrite Ek in Hr'. apply in_app_or in Hr'.
      destruct Hr' as [Hi|[Hi|Hi]].
      + destruct (W1 _ Hi) as [t Ht]. assert (G := proj2 (W2 _ Hi t) Ht). cbn [fst snd] in Ht.
        apply (convert_channel_iff _ _ _ _ _ _ _ _ Hd) in Ht. destruct Ht as (_ & _ & m & r & Em & Hf & ->).
        exists r, (sorter r). split; [exact Hf|]. unfold redd_mapping in Em. injection Em as <-. split; [exact G|]. apply Hs.
      + assert (h = h') by congruence. assert (c = c') by congruence. subst. unfold before in Hb. cbn in Hb. lia.
      + apply B2 in Hi. unfold before, upto in *. cbn [fst snd] in *. lia.
    - intros t G.
      destruct (in_dec (fun x y => match bool_dec (key_eqb x y) true with left e => left (proj1 (key_eqb_eq x y) e) | right n => right (fun e => n (proj2 (key_eqb_eq x y) e)) end) (h', c') k1) as [Hi|Hi].
      + split; [apply (in_channels d h' c' Hd); rewrite Ek; apply in_or_app; now left|].
        assert (U := B1 _ Hi). unfold before, upto in *. cbn [fst snd] in *.
        destruct U as [U|[-> U]]; [now left|]. right. split; [reflexivity|].
        destruct (Z.eq_dec c' c) as [->|]; [now elim B3|lia].
      + rewrite (W3 _ Hi) in G. discriminate.
  Qed.

  (** UK-DALE. *)
  Lemma ac_types_in (m : ac_map) k l : NoDup (map fst m) -> (ac_types m k = Some l <-> In (k, l) m).
  Proof.
    induction m as [|[k' l'] m IH]; cbn [map fst ac_types]; intros Hn; [split; [discriminate|intros []]|].
    apply NoDup_cons_iff in Hn. destruct Hn as [Hk Hn]. destruct (key_eqb k k') eqn:E.
    - apply key_eqb_eq in E. subst k'. split; [intros [= ->]; now left|]. intros [H|H]; [congruence|].
      elim Hk. now apply (in_map fst) in H.
    - rewrite (IH Hn). split; [now right|]. intros [H|H]; [|exact H]. assert (k' = k) by congruence. subst.
      rewrite (proj2 (key_eqb_eq k k) eq_refl) in E. discriminate.
  Qed.
  Lemma one_second_iff l : one_second l = true <-> l = [Active; Apparent].
  Proof. destruct l as [|[] [|[] [|]]]; cbn; split; congruence. Qed.
  Lemma in_one_sec (m : ac_map) k : In k (map fst (filter (fun p => one_second (snd p)) m)) <-> In (k, [Active; Apparent]) m.
  Proof.
    rewrite in_map_iff. split.
    - intros ([k' l] & <- & H). apply filter_In in H. destruct H as [H E]. apply one_second_iff in E. cbn in *. now subst.
    - intros H. exists (k, [Active; Apparent]). split; [reflexivity|]. apply filter_In. now split.
  Qed.

  Lemma clean_as_asked (sorter : rows V -> rows V) dd (raw : rows V) : as_asked dd raw (clean sorter false dd raw).
  Proof. unfold as_asked, clean. destruct dd; [apply drop_later_first|reflexivity]. Qed.

  Lemma ukdale_succeeds sorter m mains dd d : NoDup (map fst m) -> proper d ->
    (snd (convert_ukdale sorter m mains dd (Some d)) = None <->
     (forall h c, recognised d h c -> (1 <= h)%Z /\ (1 <= c)%Z /\ (exists t ts, In ((h, c), t :: ts) m) /\ exists r, channel_file d h c (Ok r)) /\
     (forall h c, In ((h, c), [Active; Apparent]) m -> (1 <= h)%Z /\ (1 <= c)%Z /\ exists r, mains h = Ok r)).
  Proof.
    intros Hm Hd. unfold convert_ukdale.
    assert (A : snd (convert sorter (ukdale_mapping m) false dd (Some d) []) = None <->
      (forall h c, recognised d h c -> (1 <= h)%Z /\ (1 <= c)%Z /\ (exists t ts, In ((h, c), t :: ts) m) /\ exists r, channel_file d h c (Ok r))).
    { unfold convert. rewrite write_all_succeeds. split.
      - intros H h c Hr. apply (in_channels d h c Hd) in Hr. destruct (H _ Hr) as [t Ht]. cbn [fst snd] in Ht.
        apply (convert_channel_iff _ _ _ _ _ _ _ _ Hd) in Ht. destruct Ht as (Hh & Hc & ms & r & Em & Hf & _).
        split; [exact Hh|]. split; [exact Hc|]. split; [|eauto]. unfold ukdale_mapping in Em.
        destruct (ac_types m (h, c)) as [[|t0 ts]|] eqn:E; try discriminate. exists t0, ts. now apply (ac_types_in m _ _ Hm).
      - intros H [h c] Hi. apply (in_channels d h c Hd) in Hi. destruct (H _ _ Hi) as (Hh & Hc & (t & ts & Ht) & r & Hf).
        eexists. cbn [fst snd]. apply (convert_channel_iff _ _ _ _ _ _ _ _ Hd). split; [exact Hh|]. split; [exact Hc|].
        apply (ac_types_in m _ _ Hm) in Ht. unfold ukdale_mapping. rewrite Ht. eauto. }
    destruct (convert sorter (ukdale_mapping m) false dd (Some d) []) as [s o] eqn:E. cbn [snd] in A. destruct o as [e|].
    - cbn [snd]. split; [discriminate|]. intros [H _]. apply (proj2 A) in H. discriminate.
    - unfold convert_one_sec. rewrite write_all_succeeds. split.
      + intros H. split; [now apply A|]. intros h c Hi. apply in_one_sec in Hi. destruct (H _ Hi) as [t Ht]. cbn [fst snd] in Ht. unfold check_key in Ht.
        destruct (Z.leb_spec 1 h); cbn [andb bind] in Ht; [|discriminate]. destruct (Z.leb_spec 1 c); cbn [bind] in Ht; [|discriminate].
        destruct (mains h) as [r|]; [|discriminate]. eauto.
      + intros [_ H] [h c] Hi. apply in_one_sec in Hi. destruct (H _ _ Hi) as (Hh & Hc & r & Er). cbn [fst snd]. unfold check_key.
        destruct (Z.leb_spec 1 h); [|lia]. destruct (Z.leb_spec 1 c); [|lia]. cbn [andb bind]. rewrite Er. cbn [bind]. eauto.
  Qed.

  Lemma ukdale_lemma sorter m mains dd d s : NoDup (map fst m) -> proper d -> convert_ukdale sorter m mains dd (Some d) = (s, None) ->
    forall h c,
      (In ((h, c), [Active; Apparent]) m -> exists r l, mains h = Ok r /\
         get s (h, c) = Some ([(Power, Some Active); (Power, Some Apparent); (Voltage, None)], l) /\ as_asked dd r l) /\
      (forall raw types, (1 <= h <= 9)%Z -> (1 <= c <= 99)%Z -> channel_file d h c raw -> In ((h, c), types) m -> types <> [Active; Apparent] ->
         exists t ts r l, types = t :: ts /\ raw = Ok r /\ get s (h, c) = Some ([(Power, Some t)], l) /\ as_asked dd r l) /\
      (~ In ((h, c), [Active; Apparent]) m -> (forall raw, ~ channel_file d h c raw) \/ ~ (1 <= h <= 9)%Z \/ ~ (1 <= c <= 99)%Z -> get s (h, c) = None).
  Proof.
    intros Hm Hd H h c. unfold convert_ukdale in H.
    destruct (convert sorter (ukdale_mapping m) false dd (Some d) []) as [s0 o] eqn:E. destruct o as [e|]; [discriminate|].
    destruct (convert_ok _ _ _ _ _ _ Hd E) as [H1 H2]. unfold convert_one_sec in H. apply write_all_ok in H. destruct H as (W1 & W2 & W3).
    split; [|split].
    - intros Hi. apply in_one_sec in Hi. destruct (W1 _ Hi) as [t Ht]. assert (G := proj2 (W2 _ Hi t) Ht). cbn [fst snd] in Ht.
      unfold check_key in Ht. destruct ((1 <=? h)%Z && (1 <=? c)%Z); [|discriminate]. cbn [bind] in Ht.
      destruct (mains h) as [r|]; [|discriminate]. cbn [bind] in Ht. exists r, (clean sorter false dd r). split; [reflexivity|].
      injection Ht as <-. split; [exact G|apply clean_as_asked].
    - intros raw types Hh Hc Hf Ht Hne. assert (Hr := channel_file_recognised d h c raw ltac:(lia) ltac:(lia) Hf).
      destruct (H1 _ _ Hr) as [t Et]. assert (G := proj2 (H2 h c t) (conj Hr Et)).
      apply (convert_channel_iff _ _ _ _ _ _ _ _ Hd) in Et. destruct Et as (_ & _ & ms & r & Em & Hf' & ->).
      assert (raw = Ok r) as ->. { rewrite <- (proj1 (read_channel_iff d h c r Hd) _ Hf). now apply (read_channel_iff d h c r Hd). }
      unfold ukdale_mapping in Em. rewrite (proj2 (ac_types_in m _ _ Hm) Ht) in Em. destruct types as [|t ts]; [discriminate|].
      exists t, ts, r, (clean sorter false dd r). split; [reflexivity|]. split; [reflexivity|]. split; [|apply clean_as_asked].
      injection Em as <-. rewrite W3; [exact G|]. intros Hi. apply in_one_sec in Hi. apply (ac_types_in m _ _ Hm) in Hi. apply (ac_types_in m _ _ Hm) in Ht. congruence.
    - intros Hi Hn. rewrite W3 by (intros X; apply Hi; now apply in_one_sec).
      destruct (get s0 (h, c)) as [t|] eqn:G; [|reflexivity]. exfalso. apply H2 in G. destruct G as [Hr Ht].
      apply (convert_channel_iff _ _ _ _ _ _ _ _ Hd) in Ht. destruct Ht as (Hh & Hc & ms & r & _ & Hf & _).
      apply recognised_range in Hr. destruct Hn as [Hn|[Hn|Hn]]; [now apply (Hn (Ok r))|lia|lia].
  Qed.

  Lemma shared_lemma sorter m mains dd d s h c c' : convert_ukdale sorter m mains dd (Some d) = (s, None) ->
    In ((h, c), [Active; Apparent]) m -> In ((h, c'), [Active; Apparent]) m -> exists t, get s (h, c) = Some t /\ get s (h, c') = Some t.
  Proof.
    intros H Hi Hi'. unfold convert_ukdale in H.
    destruct (convert sorter (ukdale_mapping m) false dd (Some d) []) as [s0 o] eqn:E. destruct o as [e|]; [discriminate|].
    unfold convert_one_sec in H. apply write_all_ok in H. destruct H as (W1 & W2 & W3). apply in_one_sec in Hi. apply in_one_sec in Hi'.
    destruct (W1 _ Hi) as [t Ht]. destruct (W1 _ Hi') as [t' Ht']. assert (G := proj2 (W2 _ Hi t) Ht). assert (G' := proj2 (W2 _ Hi' t') Ht').
    exists t. split; [exact G|]. rewrite G'. cbn [fst snd] in *. unfold check_key in *.
    destruct ((1 <=? h)%Z && (1 <=? c)%Z); [|discriminate]. destruct ((1 <=? h)%Z && (1 <=? c')%Z); [|discriminate]. cbn [bind] in *. congruence.
  Qed.

  (** Sorting by insertion. *)
  Lemma insert_row_perm eq (r : Z * V) l : Permutation (insert_row eq r l) (r :: l).
  Proof.
    induction l as [|x l IH]; cbn [insert_row]; [reflexivity|]. destruct ((_ <? _)%Z || _); [reflexivity|]. rewrite IH. apply perm_swap.
  Qed.
  Lemma insert_row_sorted eq (r : Z * V) l : StronglySorted Z.le (map fst l) -> StronglySorted Z.le (map fst (insert_row eq r l)).
  Proof.
    induction l as [|x l IH]; intros H; cbn [insert_row map].
    - repeat constructor.
    - cbn [map] in H. destruct (StronglySorted_inv H) as [H1 H2]. destruct ((fst r <? fst x)%Z || (eq && (fst r =? fst x)%Z)) eqn:E.
      + assert (fst r <= fst x)%Z.
        { apply orb_true_iff in E. destruct E as [E|E]; [apply Z.ltb_lt in E; lia|]. apply andb_true_iff in E. destruct E as [_ E]. apply Z.eqb_eq in E. lia. }
        cbn [map]. constructor; [exact H|]. constructor; [assumption|]. rewrite Forall_forall in *. intros z Hz. specialize (H2 z Hz). lia.
      + apply orb_false_iff in E. destruct E as [E _]. apply Z.ltb_ge in E. cbn [map]. constructor; [now apply IH|].
        apply Forall_forall. intros z Hz. apply (Permutation_in _ (Permutation_map fst (insert_row_perm eq r l))) in Hz.
        cbn [map] in Hz. destruct Hz as [<-|Hz]; [lia|]. rewrite Forall_forall in H2. now apply H2.
  Qed.
  Lemma sort_rows_sorts eq : sorts (V := V) (sort_rows eq).
  Proof.
    intros l. induction l as [|r l [IH1 IH2]]; cbn; [split; [reflexivity|constructor]|].
    split; [rewrite insert_row_perm; now apply perm_skip|now apply insert_row_sorted].
  Qed.
End S.
