From Verif Require Import Base KeyModel KeySpec.
From Coq Require Import Ascii String DecimalString DecimalN.
Import List.
Open Scope list_scope.
Open Scope nat_scope.

Lemma eqb_slash : Ascii.eqb slash slash = true.
Proof. reflexivity. Qed.

Lemma eqb_other c : c <> slash -> Ascii.eqb c slash = false.
Proof. intros H. apply Ascii.eqb_neq. exact H. Qed.

(** ** strip *)

Lemma lstrip_repeat i s : lstrip (repeat slash i ++ s) = lstrip s.
Proof. induction i as [|i IH]; [reflexivity|]. cbn [repeat app lstrip]. rewrite eqb_slash. exact IH. Qed.

Lemma lstrip_id c s : c <> slash -> lstrip (c :: s) = c :: s.
Proof. intros H. cbn [lstrip]. rewrite eqb_other by exact H. reflexivity. Qed.

Lemma lstrip_split s : exists i, s = repeat slash i ++ lstrip s.
Proof.
  induction s as [|c s [i IH]]; [exists 0; reflexivity|]. cbn [lstrip]. destruct (Ascii.eqb c slash) eqn:E; [|exists 0; reflexivity].
  apply Ascii.eqb_eq in E. subst c. exists (S i). cbn [repeat app]. rewrite <- IH. reflexivity.
Qed.

Lemma rev_repeat {A} (a : A) n : rev (repeat a n) = repeat a n.
Proof.
  induction n as [|n IH]; [reflexivity|]. cbn [repeat rev]. rewrite IH. clear. induction n as [|n IH]; [reflexivity|]. cbn [repeat app]. rewrite IH. reflexivity.
Qed.

Lemma strip_split s : exists i j, s = repeat slash i ++ strip s ++ repeat slash j.
Proof.
  destruct (lstrip_split s) as [i Hi]. destruct (lstrip_split (rev (lstrip s))) as [j Hj]. exists i, j. unfold strip.
  rewrite Hi at 1. f_equal. rewrite <- (rev_involutive (lstrip s)) at 1. rewrite Hj at 1. rewrite rev_app_distr, rev_repeat. reflexivity.
Qed.

(** Strings that neither start nor end with a slash, or are empty. *)
Definition bare (s : str) : Prop := s = [] \/ (exists a s', s = a :: s' /\ a <> slash) /\ (exists s' b, s = s' ++ [b] /\ b <> slash).

Lemma strip_repeat i s j : bare s -> strip (repeat slash i ++ s ++ repeat slash j) = s.
Proof.
  intros [->|[(a & s1 & E1 & H1) (s2 & b & E2 & H2)]].
  - cbn [app]. unfold strip. rewrite lstrip_repeat. assert (E : lstrip (repeat slash j) = []) by (rewrite <- (app_nil_r (repeat slash j)), lstrip_repeat; reflexivity). rewrite E. reflexivity.
  - unfold strip. rewrite lstrip_repeat. rewrite E1 at 1. cbn [app]. rewrite lstrip_id by exact H1. change (a :: s1 ++ repeat slash j) with ((a :: s1) ++ repeat slash j). rewrite <- E1.
    rewrite rev_app_distr, rev_repeat, lstrip_repeat. rewrite E2 at 1. rewrite rev_app_distr. cbn [rev app]. rewrite lstrip_id by exact H2. change (b :: rev s2) with ([b] ++ rev s2).
    rewrite rev_app_distr, rev_involutive. symmetry. exact E2.
Qed.

Lemma strip_id s : bare s -> strip s = s.
Proof. intros H. pose proof (strip_repeat 0 s 0 H) as E. cbn [repeat app] in E. rewrite app_nil_r in E. exact E. Qed.

(** ** split *)

Lemma split_cons_app c s : ~ In slash c -> split_path (c ++ slash :: s) = c :: split_path s.
Proof.
  induction c as [|a c IH]; intros H; cbn [app split_path].
  - rewrite eqb_slash. reflexivity.
  - rewrite eqb_other by (intros ->; apply H; left; reflexivity). rewrite IH by (intros K; apply H; right; exact K). reflexivity.
Qed.

Lemma split_one c : ~ In slash c -> split_path c = [c].
Proof.
  induction c as [|a c IH]; intros H; cbn [split_path]; [reflexivity|]. rewrite eqb_other by (intros ->; apply H; left; reflexivity).
  rewrite IH by (intros K; apply H; right; exact K). reflexivity.
Qed.

(** ** Numerals *)

Definition is_digit (c : ascii) : Prop := In c (list_ascii_of_string "0123456789").

Lemma decimal_digits n : Forall is_digit (decimal n).
Proof.
  unfold decimal, lit. generalize (N.to_uint (Z.to_N n)). intros u. unfold is_digit. induction u; cbn [NilEmpty.string_of_uint list_ascii_of_string]; constructor; try assumption; cbn; tauto.
Qed.

Lemma digits_no_slash s : Forall is_digit s -> ~ In slash s.
Proof. intros H K. rewrite Forall_forall in H. apply H in K. unfold is_digit in K. cbn in K. intuition discriminate. Qed.

Lemma digits_not_start p c s : ~ is_digit c -> Forall is_digit s -> startswith (c :: p) s = false.
Proof.
  intros H HF. destruct s as [|d s]; [reflexivity|]. cbn [startswith]. destruct (Ascii.eqb c d) eqn:E; [|reflexivity]. apply Ascii.eqb_eq in E. subst d.
  apply Forall_cons_iff in HF. tauto.
Qed.

Lemma remove_digits p c s : ~ is_digit c -> Forall is_digit s -> remove_all (c :: p) s = s.
Proof.
  intros H. unfold remove_all. induction s as [|d s IH]; intros HF; [reflexivity|]. cbn [remove_from]. rewrite digits_not_start by assumption. rewrite IH; [reflexivity|]. apply Forall_cons_iff in HF. tauto.
Qed.

Lemma remove_skip p q s : remove_from (length q) p (q ++ s) = remove_from 0 p s.
Proof. induction q as [|a q IH]; [reflexivity|]. cbn [length app remove_from]. exact IH. Qed.

Lemma startswith_app p s : startswith p (p ++ s) = true.
Proof. induction p as [|a p IH]; [reflexivity|]. cbn [app startswith]. rewrite Ascii.eqb_refl. exact IH. Qed.

Lemma remove_prefix p c s : ~ is_digit c -> Forall is_digit s -> remove_all (c :: p) ((c :: p) ++ s) = s.
Proof.
  intros H HF. unfold remove_all. cbn [app remove_from]. change (c :: p ++ s) with ((c :: p) ++ s). rewrite startswith_app. cbn [length]. rewrite Nat.sub_succ, Nat.sub_0_r.
  rewrite remove_skip. apply (remove_digits p c s H HF).
Qed.

Lemma lit_building : lit "building" = "b"%char :: lit "uilding". Proof. reflexivity. Qed.
Lemma lit_meter : lit "meter" = "m"%char :: lit "eter". Proof. reflexivity. Qed.

Lemma b_not_digit : ~ is_digit "b"%char. Proof. unfold is_digit. cbn. intuition discriminate. Qed.
Lemma m_not_digit : ~ is_digit "m"%char. Proof. unfold is_digit. cbn. intuition discriminate. Qed.

Lemma decimal_nonempty py_int n : reads_numerals py_int -> (1 <= n)%Z -> exists s d, decimal n = s ++ [d].
Proof.
  intros HP Hn. destruct (decimal n) as [|c r] eqn:E.
  - exfalso. assert (E2 : decimal (n + n) = []).
    { (* decimal n = [] forces the numeral to be empty *) unfold decimal, lit in *. destruct (N.to_uint (Z.to_N n)) eqn:U; try discriminate. 
      pose proof (DecimalN.Unsigned.of_to (Z.to_N n)) as K. rewrite U in K. cbn in K. lia. }
    pose proof (HP n Hn) as A. pose proof (HP (n + n)%Z ltac:(lia)) as B. rewrite E in A. rewrite E2 in B. rewrite A in B. injection B. lia.
  - destruct (exists_last (l := c :: r)) as (s & d & Es); [discriminate|]. exists s, d. exact Es.
Qed.

(** ** Keys *)

Lemma check_valid k : valid k <-> check k = Ok k.
Proof.
  unfold valid, check. destruct k as [b m u]. cbn [k_building k_meter]. split.
  - intros [H1 H2]. replace (b <? 1)%Z with false by lia. destruct m as [m|]; [|reflexivity]. specialize (H2 m eq_refl). replace (m <? 1)%Z with false by lia. reflexivity.
  - destruct (b <? 1)%Z eqn:E; [discriminate|]. destruct m as [m|]; [|intros _; split; [lia|discriminate]]. destruct (m <? 1)%Z eqn:E2; [discriminate|]. intros _. split; [lia|]. intros m' [= <-]. lia.
Qed.

Lemma check_ok k k' : check k = Ok k' -> k' = k /\ valid k.
Proof.
  intros H. assert (E : k' = k).
  { unfold check in H. destruct (_ <? 1)%Z; [discriminate|]. destruct (k_meter k) as [m|]; [destruct (m <? 1)%Z; [discriminate|]|]; congruence. }
  subst k'. split; [reflexivity|]. apply check_valid. exact H.
Qed.

Lemma check_err k e : check k = Err e -> e = AssertionError /\ ~ valid k.
Proof.
  intros H. split; [|intros V; apply check_valid in V; congruence]. unfold check in H. destruct (_ <? 1)%Z; [congruence|]. destruct (k_meter k) as [m|]; [destruct (m <? 1)%Z|]; congruence.
Qed.

Definition repr_of (k : key) : str :=
  lit "/building" ++ decimal (k_building k) ++ match k_meter k with Some m => lit "/elec/meter" ++ decimal m | None => [] end.

Lemma repr_valid k : valid k -> key_repr k = Ok (repr_of k).
Proof. intros H. apply check_valid in H. unfold key_repr. rewrite H. reflexivity. Qed.

Lemma round_trip py_int k : reads_numerals py_int -> valid k ->
  exists s, key_repr k = Ok s /\ key_of_string py_int s = Ok (mkKey (k_building k) (k_meter k) (match k_meter k with Some _ => Some (lit "elec") | None => None end)).
Proof.
  intros HP HV. exists (repr_of k). split; [apply repr_valid; exact HV|]. pose proof HV as [H1 H2]. destruct k as [b m u]. unfold repr_of. cbn [k_building k_meter] in *.
  destruct (decimal_nonempty py_int b HP H1) as (sb & db & Eb). pose proof (decimal_digits b) as Db.
  assert (NSb : ~ In slash (lit "building" ++ decimal b)).
  { intros K. apply in_app_or in K. destruct K as [K|K]; [cbn in K; intuition discriminate|]. exact (digits_no_slash _ Db K). }
  assert (Fb : remove_all (lit "building") (lit "building" ++ decimal b) = decimal b) by (rewrite lit_building; apply remove_prefix; [exact b_not_digit|exact Db]).
  destruct m as [m|].
  - specialize (H2 m eq_refl). destruct (decimal_nonempty py_int m HP H2) as (sm & dm & Em). pose proof (decimal_digits m) as Dm.
    assert (NSm : ~ In slash (lit "meter" ++ decimal m)).
    { intros K. apply in_app_or in K. destruct K as [K|K]; [cbn in K; intuition discriminate|]. exact (digits_no_slash _ Dm K). }
    assert (Fm : remove_all (lit "meter") (lit "meter" ++ decimal m) = decimal m) by (rewrite lit_meter; apply remove_prefix; [exact m_not_digit|exact Dm]).
    set (body := (lit "building" ++ decimal b) ++ slash :: lit "elec" ++ slash :: lit "meter" ++ decimal m).
    assert (E : lit "/building" ++ decimal b ++ lit "/elec/meter" ++ decimal m = repeat slash 1 ++ body ++ repeat slash 0).
    { unfold body. cbn [repeat]. rewrite app_nil_r. rewrite <- !app_assoc. reflexivity. }
    rewrite E. unfold key_of_string. rewrite strip_repeat.
    2:{ right. split; [exists "b"%char, (lit "uilding" ++ decimal b ++ slash :: lit "elec" ++ slash :: lit "meter" ++ decimal m); split; [unfold body; rewrite <- app_assoc; reflexivity|discriminate]|].
        exists ((lit "building" ++ decimal b) ++ slash :: lit "elec" ++ slash :: lit "meter" ++ sm), dm. split; [unfold body; rewrite Em; rewrite <- !app_assoc; cbn [app]; rewrite <- !app_assoc; reflexivity|].
        intros ->. apply (digits_no_slash _ Dm). rewrite Em. apply in_or_app. right. left. reflexivity. }
    assert (ES : split_path body = [lit "building" ++ decimal b; lit "elec"; lit "meter" ++ decimal m]).
    { unfold body. rewrite split_cons_app by exact NSb. rewrite split_cons_app by (cbn; intuition discriminate). rewrite split_one by exact NSm. reflexivity. }
    rewrite ES. cbn [hd]. rewrite startswith_app. cbn [negb]. rewrite Fb. rewrite (HP b H1). rewrite startswith_app. cbn [negb]. rewrite Fm. rewrite (HP m H2). cbn [bind].
    apply check_valid. split; [exact H1|]. cbn [k_meter]. intros m' [= <-]. exact H2.
  - set (body := lit "building" ++ decimal b).
    assert (E : lit "/building" ++ decimal b ++ [] = repeat slash 1 ++ body ++ repeat slash 0).
    { unfold body. cbn [repeat]. rewrite !app_nil_r. reflexivity. }
    rewrite E. unfold key_of_string. rewrite strip_repeat.
    2:{ right. split; [exists "b"%char, (lit "uilding" ++ decimal b); split; [reflexivity|discriminate]|].
        exists (lit "building" ++ sb), db. split; [unfold body; rewrite Eb; rewrite <- app_assoc; reflexivity|]. intros ->. apply (digits_no_slash _ Db). rewrite Eb. apply in_or_app. right. left. reflexivity. }
    assert (ES : split_path body = [lit "building" ++ decimal b]) by (apply split_one; exact NSb).
    rewrite ES. cbn [hd]. rewrite startswith_app. cbn [negb]. rewrite Fb. rewrite (HP b H1). cbn [bind].
    apply check_valid. split; [exact H1|]. cbn [k_meter]. discriminate.
Qed.

Lemma repr_injective k k' s : key_repr k = Ok s -> key_repr k' = Ok s -> k_building k = k_building k' /\ k_meter k = k_meter k'.
Proof.
  intros E E'. set (py_int := fun s => match NilEmpty.uint_of_string (string_of_list_ascii s) with Some u => Some (Z.of_N (N.of_uint u)) | None => None end).
  assert (HP : reads_numerals py_int).
  { intros n Hn. unfold py_int, decimal, lit. rewrite string_of_list_ascii_of_string, NilEmpty.usu, DecimalN.Unsigned.of_to. f_equal. lia. }
  assert (V : forall x s, key_repr x = Ok s -> valid x) by (intros x t H; unfold key_repr in H; destruct (check x) eqn:C; [|discriminate]; apply check_ok in C; tauto).
  destruct (round_trip py_int k HP (V _ _ E)) as (s1 & R1 & P1). destruct (round_trip py_int k' HP (V _ _ E')) as (s2 & R2 & P2).
  assert (s1 = s) by congruence. assert (s2 = s) by congruence. subst s1 s2. rewrite P1 in P2. injection P2 as A B _. auto.
Qed.

Lemma reads_numerals_exists : exists py_int, reads_numerals py_int.
Proof.
  exists (fun s => match NilEmpty.uint_of_string (string_of_list_ascii s) with Some u => Some (Z.of_N (N.of_uint u)) | None => None end).
  intros n Hn. unfold decimal, lit. rewrite string_of_list_ascii_of_string, NilEmpty.usu, DecimalN.Unsigned.of_to. f_equal. lia.
Qed.

Lemma parsed_valid py_int s k : key_of_string py_int s = Ok k -> valid k /\ exists s', key_repr k = Ok s'.
Proof.
  intros H. assert (V : valid k).
  { unfold key_of_string in H. destruct (negb _); [discriminate|]. destruct (py_int _) as [b|]; [|discriminate].
    match type of H with (bind ?m ?f) = _ => destruct m as [meter|e]; cbn [bind] in H; [|discriminate] end. apply check_ok in H. destruct H as [-> H]. exact H. }
  split; [exact V|]. eexists. apply repr_valid. exact V.
Qed.

(** ** join_key *)

Lemma path_app a la b lb : path a la -> path b lb -> path (a ++ slash :: b) (la ++ lb).
Proof.
  induction 1 as [|s l H IH|c Hc|c s l Hc H IH]; intros Hb; cbn [app].
  - constructor. exact Hb.
  - constructor. apply IH. exact Hb.
  - constructor; assumption.
  - rewrite <- app_assoc. cbn [app]. constructor; [exact Hc|]. apply IH. exact Hb.
Qed.

Lemma component_cons a c : component (a :: c) -> a <> slash.
Proof. intros [_ H] ->. apply H. left. reflexivity. Qed.

Lemma path_unslash s l : path (slash :: s) l -> path s l.
Proof.
  intros H. inversion H as [|s' l' H' E|c Hc E|c s' l' Hc H' E]; subst; [exact H'| |].
  - exfalso. exact (component_cons _ _ Hc eq_refl).
  - destruct c as [|a c]; [destruct Hc as [Hc _]; contradiction|]. cbn in E. injection E as -> _. exfalso. exact (component_cons _ _ Hc eq_refl).
Qed.

Lemma path_unslash_n i s l : path (repeat slash i ++ s) l -> path s l.
Proof. induction i as [|i IH]; intros H; [exact H|]. apply IH. apply path_unslash. exact H. Qed.

Lemma path_nil l : path [] l -> l = [].
Proof. intros H. inversion H as [| |c Hc|c s l' Hc H' E]; subst; [reflexivity|destruct Hc; contradiction|destruct c; discriminate]. Qed.

(** Removing a trailing slash. *)
Lemma path_unslash_r s l : path (s ++ [slash]) l -> path s l.
Proof.
  intros H. remember (s ++ [slash]) as t eqn:E. revert s E. induction H as [|t l H IH|c Hc|c t l Hc H IH]; intros s E.
  - destruct s; discriminate.
  - destruct s as [|a s]; [injection E as E; subst t; exact H|]. injection E as <- E. constructor. apply IH. exact E.
  - exfalso. apply (proj2 Hc). rewrite E. apply in_or_app. right. left. reflexivity.
  - destruct t as [|x t].
    + apply app_inj_tail in E. destruct E as [<- _]. apply path_nil in H. subst l. apply path_last. exact Hc.
    + destruct (exists_last (l := x :: t)) as (t' & d & Et); [discriminate|]. rewrite Et in E. change (c ++ slash :: t' ++ [d]) with (c ++ (slash :: t') ++ [d]) in E. rewrite app_assoc in E.
      apply app_inj_tail in E. destruct E as [<- ->]. constructor; [exact Hc|]. apply IH. exact Et.
Qed.

Lemma path_unslash_rn s j l : path (s ++ repeat slash j) l -> path s l.
Proof.
  revert s. induction j as [|j IH]; intros s H; [cbn in H; rewrite app_nil_r in H; exact H|]. cbn [repeat] in H. change (slash :: repeat slash j) with ([slash] ++ repeat slash j) in H. rewrite app_assoc in H.
  apply path_unslash_r. apply IH. exact H.
Qed.

Lemma path_strip s l : path s l -> path (strip s) l.
Proof. intros H. destruct (strip_split s) as (i & j & E). rewrite E in H. apply path_unslash_n in H. apply path_unslash_rn in H. exact H. Qed.

Lemma join_loop args ls : Forall2 path args ls -> forall key l, path key l -> (exists k', key = k' ++ [slash]) ->
  path (fold_left join_step args key) (l ++ concat ls) /\ (exists k', fold_left join_step args key = k' ++ [slash]) /\ exists r, fold_left join_step args key = key ++ r.
Proof.
  induction 1 as [|a la args ls Ha _ IH]; intros key l Hk He; cbn [fold_left concat].
  - rewrite app_nil_r. split; [exact Hk|]. split; [exact He|]. exists []. rewrite app_nil_r. reflexivity.
  - apply path_strip in Ha. unfold join_step at 2 4 6. destruct (strip a) as [|x s] eqn:E.
    + apply path_nil in Ha. subst la. cbn [app]. apply IH; assumption.
    + rewrite (app_assoc l la). destruct He as [k' ->].
      assert (P : path ((k' ++ [slash]) ++ (x :: s) ++ [slash]) (l ++ la)).
      { rewrite <- app_assoc. cbn [app]. apply path_app; [apply path_unslash_r; exact Hk|]. change (x :: s ++ [slash]) with ((x :: s) ++ slash :: []). rewrite <- (app_nil_r la). apply path_app; [exact Ha|constructor]. }
      destruct (IH _ _ P) as (I1 & I2 & r & I3); [exists ((k' ++ [slash]) ++ x :: s); apply app_assoc|].
      split; [exact I1|]. split; [exact I2|]. eexists. rewrite I3. rewrite <- !app_assoc. cbn [app]. reflexivity.
Qed.

Lemma join_path args ls : Forall2 path args ls -> path (join_key args) (concat ls) /\ exists r, join_key args = slash :: r.
Proof.
  intros H. destruct (join_loop args ls H [slash] []) as (P & (k' & E) & r & Er); [constructor; constructor|exists []; reflexivity|]. cbn [app] in P, Er. unfold join_key.
  rewrite E in *. destruct (Nat.ltb 1 (length (k' ++ [slash]))) eqn:L.
  - rewrite removelast_last. split; [apply path_unslash_r; exact P|]. destruct k' as [|a k']; [cbn in L; discriminate|]. cbn in Er. injection Er as -> _. eauto.
  - split; [exact P|]. rewrite app_length in L. apply Nat.ltb_ge in L. cbn [length] in L. destruct k' as [|a k']; [cbn; eauto|]. cbn [length] in L. lia.
Qed.

(** *** Tidy arguments *)

Lemma separated_bare l : Forall component l -> bare (separated l).
Proof.
  induction l as [|c l IH]; intros H; [left; reflexivity|]. apply Forall_cons_iff in H. destruct H as [Hc Hl]. specialize (IH Hl). right.
  destruct c as [|a c]; [destruct Hc; contradiction|]. split.
  - exists a. destruct l as [|d l]; cbn [separated app]; eexists; (split; [reflexivity|exact (component_cons _ _ Hc)]).
  - destruct l as [|d l].
    + cbn [separated]. destruct (exists_last (l := a :: c)) as (s & b & E); [discriminate|]. exists s, b. split; [exact E|]. intros ->. apply (proj2 Hc). rewrite E. apply in_or_app. right. left. reflexivity.
    + destruct IH as [K|[_ (s & b & E & Hb)]]; [exfalso; apply Forall_cons_iff in Hl; destruct Hl as [[Hd _] _]; destruct d as [|x d]; [contradiction|]; destruct l; discriminate|].
      exists ((a :: c) ++ slash :: s), b. split; [|exact Hb]. change (separated ((a :: c) :: d :: l)) with ((a :: c) ++ slash :: separated (d :: l)). rewrite E. rewrite <- app_assoc. reflexivity.
Qed.

Lemma separated_slash l : l <> [] -> slash :: separated l = absolute l.
Proof.
  induction l as [|c l IH]; intros H; [contradiction|]. destruct l as [|d l]; [cbn; rewrite app_nil_r; reflexivity|].
  change (separated (c :: d :: l)) with (c ++ slash :: separated (d :: l)). rewrite IH by discriminate. reflexivity.
Qed.

Lemma separated_nil l : Forall component l -> separated l = [] -> l = [].
Proof.
  intros H E. destruct l as [|c l]; [reflexivity|]. apply Forall_cons_iff in H. destruct H as [[Hc _] _]. destruct c as [|a c]; [contradiction|]. destruct l; discriminate.
Qed.

Lemma tidy_loop args ls : Forall2 tidy args ls -> forall l, fold_left join_step args (match l with [] => [slash] | _ => absolute l ++ [slash] end) = match l ++ concat ls with [] => [slash] | l' => absolute l' ++ [slash] end.
Proof.
  induction 1 as [|a la args ls Ha _ IH]; intros l; cbn [fold_left concat]; [rewrite app_nil_r; destruct l; reflexivity|].
  destruct Ha as (Hc & i & j & ->). unfold join_step at 2. rewrite strip_repeat by (apply separated_bare; exact Hc).
  destruct (separated la) as [|x s] eqn:E; [apply separated_nil in E; [|exact Hc]; subst la; cbn [app]; apply IH|].
  assert (K : match l with [] => [slash] | _ => absolute l ++ [slash] end ++ (x :: s) ++ [slash] = match l ++ la with [] => [slash] | _ => absolute (l ++ la) ++ [slash] end).
  { assert (Hla : la <> []) by (intros ->; discriminate). rewrite <- E. destruct l as [|p l].
    - cbn [app]. destruct la as [|q la]; [contradiction|]. rewrite <- (separated_slash (q :: la)) by discriminate. reflexivity.
    - change (match (p :: l) ++ la with [] => [slash] | _ => absolute ((p :: l) ++ la) ++ [slash] end) with (absolute ((p :: l) ++ la) ++ [slash]).
      assert (EA : absolute ((p :: l) ++ la) = absolute (p :: l) ++ absolute la).
      { unfold absolute at 1 2. cbn [app map concat]. rewrite map_app, concat_app. destruct la; [contradiction|]. rewrite <- !app_assoc. reflexivity. }
      rewrite EA, <- (separated_slash la) by exact Hla. rewrite <- !app_assoc. reflexivity. }
  rewrite (app_assoc l la (concat ls)), <- IH. apply f_equal. exact K.
Qed.

Lemma join_tidy args ls : Forall2 tidy args ls -> join_key args = absolute (concat ls).
Proof.
  intros H. unfold join_key. pose proof (tidy_loop args ls H []) as E. cbn [app] in E. rewrite E.
  destruct (concat ls) as [|c l] eqn:EC; [reflexivity|]. rewrite removelast_last.
  assert (L : Nat.ltb 1 (length (absolute (c :: l) ++ [slash])) = true) by (apply Nat.ltb_lt; rewrite app_length; cbn; lia). rewrite L. reflexivity.
Qed.

Lemma absolute_tidy l : Forall component l -> tidy (absolute l) l.
Proof.
  intros H. split; [exact H|]. destruct l as [|c l]; [exists 1, 0; reflexivity|]. exists 1, 0. rewrite <- separated_slash by discriminate. cbn [repeat]. rewrite app_nil_r. reflexivity.
Qed.
