(** Lemmas on the download of Dataport. *)
From Coq Require Import String QArith Lia.
From Verif Require Import Base LocalModel LocalSpec LocalProofs DownloadModel DownloadSpec.
Import List. Open Scope list_scope. Open Scope Z_scope.

(** Stretches. *)
Lemma size : chunk_size = ten_days. Proof. reflexivity. Qed.
Lemma stretches_end : forall lo hi, hi <= lo -> stretches lo hi = [].
Proof.
  intros lo hi L. unfold stretches. replace (Z.to_nat _) with 0%nat; [reflexivity|].
  assert ((hi - lo + ten_days - 1) / ten_days <= 0); [|lia]. unfold ten_days. apply Z.lt_succ_r. apply Z.div_lt_upper_bound; lia.
Qed.
Lemma stretches_step : forall lo hi, lo < hi -> stretches lo hi = (lo, Z.min hi (lo + ten_days)) :: stretches (lo + ten_days) hi.
Proof.
  intros lo hi L. unfold stretches.
  assert (E : (hi - lo + ten_days - 1) / ten_days = 1 + (hi - (lo + ten_days) + ten_days - 1) / ten_days).
  { replace (hi - lo + ten_days - 1) with ((hi - (lo + ten_days) + ten_days - 1) + 1 * ten_days) by lia. rewrite Z.div_add by (unfold ten_days; lia). lia. }
  assert (P : 0 <= (hi - (lo + ten_days) + ten_days - 1) / ten_days) by (apply Z.div_pos; unfold ten_days; lia).
  rewrite E, Z2Nat.inj_add by lia. change (Z.to_nat 1) with 1%nat. cbn [Nat.add seq map].
  apply f_equal2; [apply f_equal2; lia|]. rewrite <- seq_shift, map_map. apply map_ext. intros j. apply f_equal2; lia.
Qed.
Lemma chunks_of : forall fuel lo hi, (hi - lo) / ten_days < Z.of_nat fuel ->
  chunks fuel lo hi = Ok (map (fun x => (fst x, snd x - sec)) (stretches lo hi)).
Proof.
  induction fuel as [|k IH]; intros lo hi F; cbn [chunks].
  - destruct (lo <? hi) eqn:E; [|apply Z.ltb_ge in E; now rewrite stretches_end].
    apply Z.ltb_lt in E. assert (0 <= (hi - lo) / ten_days) by (apply Z.div_pos; unfold ten_days; lia). lia.
  - destruct (lo <? hi) eqn:E; [|apply Z.ltb_ge in E; now rewrite stretches_end].
    apply Z.ltb_lt in E. rewrite size, IH.
    + cbn [bind]. rewrite (stretches_step lo hi E). cbn [map fst snd]. do 3 f_equal.
      destruct (hi <? lo + ten_days) eqn:B; [apply Z.ltb_lt in B|apply Z.ltb_ge in B]; lia.
    + replace (hi - (lo + ten_days)) with ((hi - lo) + (-1) * ten_days) by lia. rewrite Z.div_add by (unfold ten_days; lia). lia.
Qed.
Lemma chunks_enough : forall lo hi, chunks (S (Z.to_nat ((hi - lo) / chunk_size))) lo hi = Ok (map (fun x => (fst x, snd x - sec)) (stretches lo hi)).
Proof.
  intros lo hi. apply chunks_of. rewrite size. lia.
Qed.
Lemma stretch_whole : forall lo hi x, whole lo -> whole hi -> In x (stretches lo hi) -> whole (fst x) /\ whole (snd x) /\ lo <= fst x /\ snd x <= hi.
Proof.
  intros lo hi x L H I. unfold stretches in I. apply in_map_iff in I. destruct I as (j & <- & _). cbn [fst snd]. unfold whole, ten_days in *.
  assert (M : forall k, (lo + k * 864000000000000) mod 1000000000 = 0).
  { intros k. rewrite <- Z.add_mod_idemp_l, L by lia. replace (0 + k * 864000000000000) with (k * 864000 * 1000000000) by lia. apply Z.mod_mul. lia. }
  split; [apply M|]. split; [|split; lia].
  destruct (Z.min_spec hi (lo + (Z.of_nat j + 1) * 864000000000000)) as [[_ ->]|[_ ->]]; auto.
Qed.

(** Instants and clocks. *)
Lemma offset_whole : forall l o u, Forall whole (o :: map snd l) -> whole (offset_from o l u).
Proof.
  induction l as [|[t o1] r IH]; intros o u F; cbn [offset_from]; apply Forall_cons_iff in F; destruct F as [A F]; [exact A|].
  destruct (u <? t); [exact A|]. now apply IH.
Qed.
Lemma whole_add : forall a b, whole a -> whole b -> whole (a + b).
Proof. intros a b A B. unfold whole in *. rewrite <- Z.add_mod_idemp_l, A, Z.add_0_l by lia. exact B. Qed.
Lemma whole_sub : forall a b, whole a -> whole b -> whole (a - b).
Proof. intros a b A B. unfold whole in *. rewrite Zminus_mod, A, B. reflexivity. Qed.
Lemma wall_whole : forall z u, whole_zone z -> whole u -> whole (wall z u).
Proof. intros z u Z U. unfold wall. apply whole_add; [exact U|]. now apply offset_whole. Qed.
Lemma shown_whole : forall t, whole t -> shown t = t.
Proof. intros t W. unfold shown, sec, whole in *. apply Z.div_exact in W; lia. Qed.
Lemma localize_wall : forall z t u, localize z t = Ok u -> wall z u = t.
Proof. intros z t u H. now apply (proj1 (localize_ok z t u) H). Qed.
Lemma localize_whole : forall z t u, whole_zone z -> whole t -> localize z t = Ok u -> whole u.
Proof.
  intros z t u Z W H. apply localize_wall in H. unfold wall in H.
  replace u with (t - offset_from (z_first z) (z_changes z) u) by lia. apply whole_sub; [exact W|]. now apply offset_whole.
Qed.
Lemma from_clock : forall z t u x, regular z -> localize z t = Ok u -> (wall z x <= t <-> x <= u).
Proof.
  intros z t u x R H. pose proof (from_on z t u x R H) as F. pose proof (proj1 (localize_ok z t u) H) as U. split; intros L.
  - destruct (Z.eq_dec (wall z x) t) as [E|N]; [apply U in E; lia|]. destruct (Z_lt_le_dec u x) as [B|]; [|lia].
    assert (u <= x) as B2 by lia. apply F in B2. lia.
  - destruct (Z.eq_dec x u) as [E|N]; [apply U in E; lia|]. destruct (Z_lt_le_dec t (wall z x)) as [B|]; [|lia].
    assert (t <= wall z x) as B2 by lia. apply F in B2. lia.
Qed.
Lemma second_before : forall u x, whole u -> whole x -> (u <= x - sec <-> u < x).
Proof.
  intros u x U X. unfold whole, sec in *. apply Z.mod_divide in U; [|lia]. apply Z.mod_divide in X; [|lia]. destruct U as [p ->], X as [q ->]. lia.
Qed.

(** A query asks for the readings of its stretch. *)
Definition asked (z : zone) (b lo hi : Z) (r : row) : bool :=
  (r_id r =? b) && (shown (wall z lo) <=? r_stamp r) && (r_stamp r <=? shown (wall z (hi - sec))).
Lemma asked_iff : forall z b lo hi r u, regular z -> whole_zone z -> whole lo -> whole hi -> whole (r_stamp r) -> localize z (r_stamp r) = Ok u ->
  asked z b lo hi r = (r_id r =? b) && (lo <=? u) && (u <? hi).
Proof.
  intros z b lo hi r u R Z L H W E. unfold asked. rewrite !shown_whole; try (apply wall_whole; auto); [|apply whole_sub; [exact H|reflexivity]].
  f_equal; [f_equal|].
  - apply eq_true_iff_eq. rewrite !Z.leb_le. now apply from_clock.
  - apply eq_true_iff_eq. rewrite Z.leb_le, Z.ltb_lt, <- (second_before u hi); [|now apply (localize_whole z (r_stamp r))|exact H].
    symmetry. now apply from_on.
Qed.
Lemma query_cons : forall z b r rows lo hi,
  query z b (r :: rows) (lo, hi - sec) = if asked z b lo hi r then r :: query z b rows (lo, hi - sec) else query z b rows (lo, hi - sec).
Proof. reflexivity. Qed.
Lemma query_taken : forall z b lo hi rows us, regular z -> whole_zone z -> whole lo -> whole hi -> (forall r, In r rows -> whole (r_stamp r)) ->
  mapM (fun r => localize z (r_stamp r)) (query z b rows (lo, hi - sec)) = Ok us ->
  combine us (query z b rows (lo, hi - sec)) = taken z b lo hi rows /\ length us = length (query z b rows (lo, hi - sec)).
Proof.
  intros z b lo hi rows us R Z L H. revert us. induction rows as [|r rows IH]; intros us W M.
  - cbn in M. injection M as <-. split; reflexivity.
  - rewrite query_cons in M |- *. unfold taken. cbn [map concat]. fold (taken z b lo hi rows).
    assert (Wr : forall x, In x rows -> whole (r_stamp x)) by (intros; apply W; now right).
    assert (W1 : whole (r_stamp r)) by (apply W; now left).
    destruct (asked z b lo hi r) eqn:A.
    + cbn [mapM] in M. destruct (localize z (r_stamp r)) as [u|e] eqn:E; [|discriminate]. cbn [bind] in M.
      destruct (mapM (fun r => localize z (r_stamp r)) (query z b rows (lo, hi - sec))) as [us'|e] eqn:M'; cbn [bind] in M; [|discriminate M]. injection M as <-.
      rewrite (asked_iff z b lo hi r u R Z L H W1 E) in A. rewrite A. cbn [combine List.app length].
      destruct (IH us' Wr eq_refl) as [-> ->]. split; reflexivity.
    + destruct (localize z (r_stamp r)) as [u|e] eqn:E.
      * rewrite (asked_iff z b lo hi r u R Z L H W1 E) in A. rewrite A. apply IH; auto.
      * apply IH; auto.
Qed.

(** Dictionaries. *)
Lemma key_eq : forall a b, key_eqb a b = true <-> a = b.
Proof.
  intros [a b] [c d]. unfold key_eqb. cbn [fst snd]. rewrite Bool.andb_true_iff, !Nat.eqb_eq. split; [intros [-> ->]; reflexivity|intros [= -> ->]; auto].
Qed.
Lemma dget_dset : forall {K V} (eqb : K -> K -> bool), (forall a b, eqb a b = true <-> a = b) -> forall (d : list (K * V)) k v k',
  dget eqb (dset eqb d k v) k' = if eqb k k' then Some v else dget eqb d k'.
Proof.
  intros K V eqb E d k v k'. induction d as [|[k1 v1] r IH]; cbn [dset dget]; [reflexivity|].
  destruct (eqb k1 k) eqn:A; cbn [dget].
  - apply E in A. subst k1. destruct (eqb k k'); reflexivity.
  - rewrite IH. destruct (eqb k1 k') eqn:B; [|reflexivity]. apply E in B. subst k1. destruct (eqb k k') eqn:C; [|reflexivity].
    apply E in C. subst k'. assert (eqb k k = true) by now apply E. congruence.
Qed.
Lemma dget_find : forall {K V} (eqb : K -> K -> bool) (d : list (K * V)) k,
  dget eqb d k = match find (fun x => eqb (fst x) k) d with Some x => Some (snd x) | None => None end.
Proof. intros K V eqb d k. induction d as [|[k1 v1] r IH]; cbn [dget find fst]; [reflexivity|]. destruct (eqb k1 k); [reflexivity|apply IH]. Qed.
Definition rows_at (t : list ((nat * nat) * tab)) (k : nat * nat) : list (Z * option Q) := match dget key_eqb t k with Some x => t_rows x | None => [] end.
Lemma stored_rows : forall o n m, stored o n m = rows_at (o_tables o) (n, m).
Proof. intros o n m. unfold stored, rows_at. rewrite dget_find. unfold key_eqb. cbn [fst snd]. destruct (find _ (o_tables o)); reflexivity. Qed.
Lemma metadata_dget : forall o n, metadata o n = dget Nat.eqb (o_yaml o) n.
Proof. intros o n. unfold metadata. now rewrite dget_find. Qed.
Lemma kind_dget : forall c, kind c = dget String.eqb feed_mapping c.
Proof. intros c. unfold kind. now rewrite dget_find. Qed.
Lemma rows_put : forall t k rs k', rows_at (put t k rs) k' = rows_at t k' ++ (if key_eqb k k' then rs else []).
Proof.
  intros t k rs k'. unfold rows_at, put. rewrite (dget_dset key_eqb key_eq). destruct (key_eqb k k') eqn:E; [|now rewrite app_nil_r].
  apply key_eq in E. subst k'. cbn [t_rows]. destruct (dget key_eqb t k); reflexivity.
Qed.
