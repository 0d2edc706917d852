(** Lemmas on the download of Dataport: what the file holds. *)
From Coq Require Import String QArith Sorted Lia.
From Verif Require Import Base LocalModel LocalSpec LocalProofs DownloadModel DownloadSpec DownloadProofs DownloadProofs2 DownloadProofs3 DownloadProofs4.
Import List. Open Scope list_scope. Open Scope nat_scope.

Lemma scaled_value : forall table x, listed table compatible = true -> scaled table x = value table x.
Proof. intros table x C. unfold scaled, value. rewrite (power_kind table C). destruct (real_power table), x; reflexivity. Qed.
Lemma part_ext : forall f g cs R k, (forall x, f x = g x) -> part f cs R k = part g cs R k.
Proof. intros f g cs R [|k] E; [reflexivity|]. unfold part, readings. destruct (nth_error _ k); [|reflexivity]. apply map_ext. intros x. now rewrite E. Qed.
Lemma compatible_in : forall table, In table compatible -> listed table compatible = true.
Proof. intros table H. unfold listed. apply existsb_exists. exists table. split; [exact H|]. apply String.eqb_refl. Qed.

Lemma parts_stored : forall z db table periods v i b lo hi o n, regular z -> whole_zone z -> whole_rows v -> asks z db table periods v i b lo hi -> views db table n ->
  download z db table periods = Ok o ->
  forall m, stored o (S i) m = concat (repeat (concat (map (fun x => part (value table) (v_columns v) (taken z b (fst x) (snd x) (v_rows v)) m) (stretches lo hi))) n).
Proof.
  intros z db table periods v i b lo hi o n R ZW W A V H m. destruct (listed table compatible) eqn:C; [|unfold download in H; rewrite C in H; discriminate H].
  destruct (own_building z db table periods v i b lo hi R ZW W C A o H) as (S0 & _). rewrite S0, (views_count db table n V). unfold copies, all_parts. do 3 f_equal.
  apply map_ext. intros x. apply part_ext. intros y. now apply scaled_value.
Qed.
Lemma last_described : forall z db table periods v i b lo hi o, regular z -> whole_zone z -> whole_rows v -> asks z db table periods v i b lo hi ->
  download z db table periods = Ok o -> forall x, last_opt (stretches lo hi) = Some x ->
  exists md, metadata o (S i) = Some md /\ describes (S i) b (metered (v_columns v) (taken z b (fst x) (snd x) (v_rows v))) md.
Proof.
  intros z db table periods v i b lo hi o R ZW W A H. destruct (listed table compatible) eqn:C; [|unfold download in H; rewrite C in H; discriminate H].
  destruct (own_building z db table periods v i b lo hi R ZW W C A o H) as (_ & D & _). exact D.
Qed.
Lemma none_described : forall z db table periods v i b lo hi o, regular z -> whole_zone z -> whole_rows v -> asks z db table periods v i b lo hi ->
  download z db table periods = Ok o -> (hi <= lo)%Z -> metadata o (S i) = None.
Proof.
  intros z db table periods v i b lo hi o R ZW W A H L. destruct (listed table compatible) eqn:C; [|unfold download in H; rewrite C in H; discriminate H].
  destruct (own_building z db table periods v i b lo hi R ZW W C A o H) as (_ & _ & D). apply D. now apply stretches_end.
Qed.

(** Readings of a period are those of its stretches. *)
Lemma taken_cons : forall z b lo hi r rows, taken z b lo hi (r :: rows) =
  match localize z (r_stamp r) with Ok u => if ((r_id r =? b) && (lo <=? u) && (u <? hi))%Z then [(u, r)] else [] | Err _ => [] end ++ taken z b lo hi rows.
Proof. reflexivity. Qed.
Lemma taken_in : forall z b lo hi rows u r, In (u, r) (taken z b lo hi rows) <-> In r rows /\ localize z (r_stamp r) = Ok u /\ r_id r = b /\ (lo <= u < hi)%Z.
Proof.
  intros z b lo hi rows u r. unfold taken. rewrite in_concat. split.
  - intros (l & I & J). apply in_map_iff in I. destruct I as (r' & <- & I). destruct (localize z (r_stamp r')) as [u'|] eqn:E; [|destruct J].
    destruct ((r_id r' =? b) && (lo <=? u') && (u' <? hi))%Z eqn:B; [|destruct J]. destruct J as [[= <- <-]|[]].
    apply andb_prop in B. destruct B as [B B3]. apply andb_prop in B. destruct B as [B1 B2]. apply Z.eqb_eq in B1. apply Z.leb_le in B2. apply Z.ltb_lt in B3. auto.
  - intros (I & E & <- & L). exists [(u, r)]. split; [|now left]. apply in_map_iff. exists r. split; [|exact I]. rewrite E, Z.eqb_refl.
    destruct L as [L1 L2]. apply Z.leb_le in L1. apply Z.ltb_lt in L2. now rewrite L1, L2.
Qed.
Lemma taken_none : forall z b lo hi rows, (forall u r, In r rows -> localize z (r_stamp r) = Ok u -> (hi <= u)%Z) -> taken z b lo hi rows = [].
Proof.
  intros z b lo hi rows H. destruct (taken z b lo hi rows) as [|[u r] l] eqn:E; [reflexivity|]. exfalso.
  assert (I : In (u, r) (taken z b lo hi rows)) by (rewrite E; now left). apply taken_in in I. destruct I as (I & L & _ & B). specialize (H u r I L). lia.
Qed.
Lemma taken_split : forall z b lo mid hi rows, regular z -> StronglySorted (fun x y => r_stamp x <= r_stamp y)%Z rows -> (lo <= mid <= hi)%Z ->
  taken z b lo hi rows = taken z b lo mid rows ++ taken z b mid hi rows.
Proof.
  intros z b lo mid hi rows R S0 M. induction S0 as [|r rows S0 IH F]; [reflexivity|]. rewrite !taken_cons, IH. destruct (localize z (r_stamp r)) as [u|] eqn:E; [|reflexivity].
  destruct (r_id r =? b)%Z eqn:I; cbn [andb List.app]; [|reflexivity].
  destruct (Z_lt_le_dec u mid) as [L|L].
  - assert (B1 : (u <? mid)%Z = true) by (apply Z.ltb_lt; lia). assert (B2 : (u <? hi)%Z = true) by (apply Z.ltb_lt; lia). assert (B3 : (mid <=? u)%Z = false) by (apply Z.leb_gt; lia).
    rewrite B1, B2, B3. cbn [andb List.app]. rewrite app_assoc. reflexivity.
  - assert (N : taken z b lo mid rows = []).
    { apply taken_none. intros u' r' I' E'. rewrite Forall_forall in F. specialize (F r' I'). apply Z.le_trans with u; [exact L|].
      apply (from_clock z (r_stamp r') u' u R E'). apply (localize_wall z (r_stamp r) u) in E. lia. }
    assert (B1 : (u <? mid)%Z = false) by (apply Z.ltb_ge; lia). assert (B2 : (lo <=? u)%Z = true) by (apply Z.leb_le; lia). assert (B3 : (mid <=? u)%Z = true) by (apply Z.leb_le; lia).
    rewrite B1, B2, B3, N. reflexivity.
Qed.
Lemma taken_empty : forall z b lo hi rows, (hi <= lo)%Z -> taken z b lo hi rows = [].
Proof.
  intros z b lo hi rows L. destruct (taken z b lo hi rows) as [|[u r] l] eqn:E; [reflexivity|]. exfalso.
  assert (I : In (u, r) (taken z b lo hi rows)) by (rewrite E; now left). apply taken_in in I. lia.
Qed.
Lemma taken_stretches : forall z b rows, regular z -> StronglySorted (fun x y => r_stamp x <= r_stamp y)%Z rows -> forall lo hi,
  taken z b lo hi rows = concat (map (fun x => taken z b (fst x) (snd x) rows) (stretches lo hi)).
Proof.
  intros z b rows R S0 lo hi. assert (G : forall k lo, (hi - lo <= Z.of_nat k * ten_days)%Z -> taken z b lo hi rows = concat (map (fun x => taken z b (fst x) (snd x) rows) (stretches lo hi))).
  { clear lo. induction k as [|k IH]; intros lo L.
    - rewrite stretches_end by lia. cbn. apply taken_empty. lia.
    - destruct (Z_lt_le_dec lo hi) as [B|B]; [|rewrite stretches_end by lia; cbn; now apply taken_empty].
      rewrite (stretches_step lo hi B). cbn [map concat fst snd]. destruct (Z_lt_le_dec hi (lo + ten_days)) as [D|D].
      + rewrite Z.min_l by lia. rewrite (stretches_end (lo + ten_days) hi) by lia. cbn. now rewrite app_nil_r.
      + rewrite Z.min_r by lia. rewrite <- IH by lia. apply taken_split; auto. unfold ten_days in *. lia. }
  apply (G (Z.to_nat (hi - lo))). unfold ten_days. lia.
Qed.
Lemma stretch_within : forall lo hi x, In x (stretches lo hi) -> (lo <= fst x /\ snd x <= hi)%Z.
Proof. intros lo hi x I. unfold stretches in I. apply in_map_iff in I. destruct I as (j & <- & _). cbn [fst snd]. unfold ten_days. lia. Qed.

(** The same columns throughout. *)
Lemma metered_in : forall cs R c, In c (metered cs R) <-> In c cs /\ ignored c = false /\ exists x q, In x R /\ r_cell (snd x) c = Some q.
Proof.
  intros cs R c. unfold metered. rewrite filter_In, Bool.andb_true_iff, Bool.negb_true_iff, existsb_exists. split.
  - intros (I & (x & J & E) & G). split; [exact I|]. split; [exact G|]. destruct (r_cell (snd x) c) as [q|] eqn:Q; [|discriminate]. now exists x, q.
  - intros (I & G & x & q & J & E). split; [exact I|]. split; [|exact G]. exists x. now rewrite E.
Qed.
Lemma metered_same : forall cs R R', (forall c, In c (metered cs R) <-> In c (metered cs R')) -> metered cs R = metered cs R'.
Proof.
  intros cs R R' H. unfold metered. apply filter_ext_in. intros c I. apply Bool.eq_true_iff_eq. specialize (H c). unfold metered in H. rewrite !filter_In in H. tauto.
Qed.
Lemma steady_metered : forall z v b lo hi x, steady z v b lo hi -> In x (stretches lo hi) -> taken z b (fst x) (snd x) (v_rows v) <> [] ->
  metered (v_columns v) (taken z b (fst x) (snd x) (v_rows v)) = metered (v_columns v) (taken z b lo hi (v_rows v)).
Proof.
  intros z v b lo hi x S0 I N. apply metered_same. intros c. split; [|intros J; now apply S0].
  rewrite !metered_in. intros (C & G & [u r] & q & J & E). split; [exact C|]. split; [exact G|]. exists (u, r), q. split; [|exact E].
  apply taken_in in J. apply taken_in. pose proof (stretch_within lo hi x I). intuition lia.
Qed.
Lemma steady_parts : forall f z v b lo hi m, regular z -> in_time_order v -> steady z v b lo hi ->
  concat (map (fun x => part f (v_columns v) (taken z b (fst x) (snd x) (v_rows v)) m) (stretches lo hi)) = part f (v_columns v) (taken z b lo hi (v_rows v)) m.
Proof.
  intros f z v b lo hi m R O S0. destruct m as [|k].
  - cbn. induction (stretches lo hi); auto.
  - assert (E : forall L, (forall x, In x L -> In x (stretches lo hi)) ->
      concat (map (fun x => part f (v_columns v) (taken z b (fst x) (snd x) (v_rows v)) (S k)) L) =
      match nth_error (metered (v_columns v) (taken z b lo hi (v_rows v))) k with Some c => readings f (concat (map (fun x => taken z b (fst x) (snd x) (v_rows v)) L)) c | None => [] end).
    { induction L as [|x L IH]; intros I.
      - cbn. destruct (nth_error _ k); reflexivity.
      - cbn [map concat]. rewrite IH by (intros y J; apply I; now right). unfold part.
        destruct (taken z b (fst x) (snd x) (v_rows v)) as [|y l] eqn:T.
        + cbn [List.app]. destruct (nth_error (metered (v_columns v) []) k); reflexivity.
        + rewrite <- T. rewrite (steady_metered z v b lo hi x S0); [|apply I; now left|rewrite T; discriminate].
          destruct (nth_error _ k); [|reflexivity]. unfold readings. now rewrite map_app. }
    rewrite E by auto. unfold part. rewrite <- (taken_stretches z b (v_rows v) R O). reflexivity.
Qed.
Lemma whole_stored : forall z db table periods v i b lo hi o n, regular z -> whole_zone z -> whole_rows v -> in_time_order v -> asks z db table periods v i b lo hi -> views db table n ->
  steady z v b lo hi -> download z db table periods = Ok o ->
  forall m, stored o (S i) m = concat (repeat (part (value table) (v_columns v) (taken z b lo hi (v_rows v)) m) n).
Proof.
  intros z db table periods v i b lo hi o n R ZW W O A V S0 H m. rewrite (parts_stored z db table periods v i b lo hi o n R ZW W A V H m). now rewrite steady_parts.
Qed.
Lemma whole_described : forall z db table periods v i b lo hi o x, regular z -> whole_zone z -> whole_rows v -> asks z db table periods v i b lo hi ->
  steady z v b lo hi -> last_opt (stretches lo hi) = Some x -> taken z b (fst x) (snd x) (v_rows v) <> [] -> download z db table periods = Ok o ->
  exists md, metadata o (S i) = Some md /\ describes (S i) b (metered (v_columns v) (taken z b lo hi (v_rows v))) md.
Proof.
  intros z db table periods v i b lo hi o x R ZW W A S0 L N H. destruct (last_described z db table periods v i b lo hi o R ZW W A H x L) as (md & M & D).
  exists md. split; [exact M|]. rewrite <- (steady_metered z v b lo hi x S0); auto.
  clear - L. induction (stretches lo hi) as [|y [|y' l] IH]; [discriminate| |]; cbn in L; [injection L as <-; now left|]. right. now apply IH.
Qed.
Lemma lost_described : forall z db table periods v i b lo hi o x, regular z -> whole_zone z -> whole_rows v -> asks z db table periods v i b lo hi ->
  last_opt (stretches lo hi) = Some x -> taken z b (fst x) (snd x) (v_rows v) = [] -> download z db table periods = Ok o ->
  exists md, metadata o (S i) = Some md /\ b_meters md = [] /\ b_apps md = [].
Proof.
  intros z db table periods v i b lo hi o x R ZW W A L N H. destruct (last_described z db table periods v i b lo hi o R ZW W A H x L) as (md & M & D).
  exists md. split; [exact M|]. rewrite N in D. assert (E : metered (v_columns v) [] = []) by (unfold metered; cbn; induction (v_columns v); auto). rewrite E in D.
  destruct D as (_ & _ & D1 & D2 & _). split.
  - destruct (b_meters md) as [|[p s] l]; [reflexivity|]. exfalso. destruct (proj1 (D1 p s) (or_introl eq_refl)) as (k & c & _ & Q & _). destruct k; discriminate.
  - cbn in D2. destruct (b_apps md); [reflexivity|discriminate].
Qed.
Lemma stored_within : forall z db table periods v i b lo hi o n m u x, regular z -> whole_zone z -> whole_rows v -> asks z db table periods v i b lo hi -> views db table n ->
  download z db table periods = Ok o -> In (u, x) (stored o (S i) m) ->
  exists r c, In r (v_rows v) /\ r_id r = b /\ localize z (r_stamp r) = Ok u /\ (lo <= u < hi)%Z /\ In c (v_columns v) /\ ignored c = false /\ x = value table (r_cell r c).
Proof.
  intros z db table periods v i b lo hi o n m u x R ZW W A V H I. rewrite (parts_stored z db table periods v i b lo hi o n R ZW W A V H m) in I.
  apply in_concat in I. destruct I as (l & J & I). apply repeat_spec in J. subst l. apply in_concat in I. destruct I as (l & J & I). apply in_map_iff in J. destruct J as (s & <- & J).
  unfold part in I. destruct m as [|k]; [destruct I|]. destruct (nth_error _ k) as [c|] eqn:E; [|destruct I]. apply nth_error_In in E. apply metered_in in E. destruct E as (E1 & E2 & _).
  unfold readings in I. apply in_map_iff in I. destruct I as ([u' r] & [= <- <-] & I). apply taken_in in I. destruct I as (I1 & I2 & I3 & I4).
  exists r, c. pose proof (stretch_within lo hi s J). repeat split; auto; lia.
Qed.
