(** Proofs about loading from a table that grows (C108). *)
From Coq Require Import Lia.
From Verif Require Import Base TimeFrameModel TimeFrameSpec TimeFrameProofs StoreModel StoreSpec StoreProofs StoreProofs2 PropsTimeFrame LiveModel LiveSpec.
Open Scope nat_scope.

(** Nothing changes. *)
Lemma still_chunks {A} (rows : list (sample A)) rows_at (H : forall k, rows_at k = rows) w n c nc e : forall starts step i,
  live_chunks rows_at step w n c nc e i starts = hdf_chunks rows w n c nc e i starts.
Proof.
  induction starts as [|st rest IH]; intros step i; [reflexivity|]. cbn [live_chunks hdf_chunks]. rewrite H. destruct (timeframe_for_chunk _ _ _ _); [|reflexivity]. rewrite IH. reflexivity.
Qed.
Lemma still_range {A} (rows : list (sample A)) rows_at (H : forall k, rows_at k = rows) step w n c s e : live_range rows_at step w n c s e = hdf_range rows w n c s e.
Proof. unfold live_range, hdf_range. rewrite (still_chunks rows rows_at H). reflexivity. Qed.
Lemma still_section {A} (rows : list (sample A)) rows_at window window_at (H : forall k, rows_at k = rows) (W : forall k, window_at k = window) step section n c :
  live_section rows_at window_at step section n c = hdf_load_section rows window section n c.
Proof.
  unfold live_section, hdf_load_section. rewrite W, H. destruct (intersection window section) as [w|]; [|reflexivity]. destruct (tf_empty w); [reflexivity|]. destruct (query_terms w) as [[q|]|]; [| |reflexivity].
  - destruct (coords_from 0 (Some q) rows) as [|c0 cs]; [reflexivity|]. destruct (last_opt (c0 :: cs)); [|reflexivity]. apply (still_range rows rows_at H).
  - destruct (Nat.leb (length rows) 1); [reflexivity|]. apply (still_range rows rows_at H).
Qed.
Lemma still_load {A} (rows : list (sample A)) rows_at window window_at (H : forall k, rows_at k = rows) (W : forall k, window_at k = window) n c : forall sections step,
  live_load rows_at window_at step sections n c = hdf_load rows window sections n c.
Proof.
  induction sections as [|s rest IH]; intros step; [reflexivity|]. cbn [live_load hdf_load]. rewrite (still_section rows rows_at window window_at H W), IH. reflexivity.
Qed.

(** Rows are appended. *)
Lemma select_before {A} (rows new : list A) s e : e <= length rows -> select (rows ++ new) s e = select rows s e.
Proof.
  intros H. unfold select. destruct (Nat.le_gt_cases s (length rows)) as [L|L].
  - rewrite skipn_app. replace (s - length rows) with 0 by lia. cbn [skipn]. rewrite firstn_app, skipn_length. replace (e - s - (length rows - s)) with 0 by lia. cbn [firstn]. apply app_nil_r.
  - replace (e - s) with 0 by lia. reflexivity.
Qed.
Lemma select_more {A} (rows new : list A) s e : exists more, select (rows ++ new) s e = select rows s e ++ more.
Proof. unfold select. rewrite skipn_app, firstn_app. eexists. reflexivity. Qed.
Lemma look_more {A} (rows new data : list (sample A)) n e :
  match look_ahead_rows rows data n e, look_ahead_rows (rows ++ new) data n e with None, None => True | Some l, Some l' => exists more, l' = l ++ more | _, _ => False end.
Proof. unfold look_ahead_rows. destruct (Nat.ltb 0 n); [|exact I]. destruct data; [exists []; reflexivity|apply select_more]. Qed.
Definition same_gen {A} (g h : gen (chunk A)) : Prop := Forall2 same_chunk (fst g) (fst h) /\ snd g = snd h.
Lemma grown_chunks {A} (rows : list (sample A)) rows_at (H : forall k, exists new, rows_at k = rows ++ new) w n c nc e : e < length rows -> forall starts step i,
  same_gen (hdf_chunks rows w n c nc e i starts) (live_chunks rows_at step w n c nc e i starts).
Proof.
  intros L. induction starts as [|st rest IH]; intros step i; [split; constructor|]. cbn [live_chunks hdf_chunks]. destruct (H step) as [new ->].
  set (ce := S (if Nat.ltb e (st + c) then e else st + c)). assert (LE : ce <= length rows) by (unfold ce; destruct (Nat.ltb_spec e (st + c)); lia). rewrite (select_before rows new st ce LE).
  destruct (timeframe_for_chunk _ _ _ _) as [t|x]; [|split; [constructor|reflexivity]]. destruct (IH (S step) (S i)) as [A1 A2]. split; [|exact A2]. constructor; [|exact A1]. split; [reflexivity|]. split; [reflexivity|]. apply look_more.
Qed.
Lemma same_refl {A} (ch : chunk A) : same_chunk ch ch.
Proof. split; [reflexivity|]. split; [reflexivity|]. destruct (c_look ch); [exists []; rewrite app_nil_r; reflexivity|exact I]. Qed.
Lemma coords_bound {A} q (rows : list (sample A)) : forall i x, In x (coords_from i q rows) -> x < i + length rows.
Proof.
  induction rows as [|r rows IH]; intros i x I; cbn [coords_from length] in *; [destruct I|]. destruct (terms_hold q (fst r)); [destruct I as [<-|I]; [lia|]|]; apply IH in I; lia.
Qed.
Lemma last_in {A} (l : list A) x : last_opt l = Some x -> In x l.
Proof. induction l as [|y l IH]; [discriminate|]. cbn [last_opt]. destruct l; [intros E; injection E as <-; left; reflexivity|]. intros E. right. apply IH, E. Qed.
Lemma same_gen_refl {A} (g : gen (chunk A)) : same_gen g g.
Proof. split; [|reflexivity]. induction (fst g); constructor; [apply same_refl|assumption]. Qed.
Lemma grown_section {A} (rows : list (sample A)) rows_at window section step n c : half_open window -> half_open section -> appended rows window [section] rows_at ->
  same_gen (hdf_load_section rows window section n c) (live_section rows_at (fun _ => window) step section n c).
Proof.
  intros HW HS G. unfold live_section, hdf_load_section. destruct (C02_intersection window section) as (w & E & IN & _). rewrite E. destruct (tf_empty w) eqn:EM; [apply same_gen_refl|].
  assert (HO : half_open w) by exact (isect_half_open window section w HW HS E).
  assert (OUT : forall q, query_terms w = Ok q -> forall k, exists new, rows_at k = rows ++ new /\ Forall (fun r => terms_hold q (fst r) = false) new).
  { intros q EQ k. destruct (G k) as (new & EN & F). exists new. split; [exact EN|]. eapply Forall_impl; [|exact F]. intros r HR. rewrite (terms_hold_inTFcb w q (fst r) EM EQ). destruct (inTFcb w (fst r)) eqn:B; [|reflexivity].
    exfalso. apply inTFcb_spec in B. apply inTFc_half_open in B; [|exact HO]. apply (HR section (or_introl eq_refl)). apply IN, B. }
  assert (GR : forall k, exists new, rows_at k = rows ++ new) by (intros k; destruct (G k) as (new & -> & _); exists new; reflexivity).
  destruct (query_terms w) as [[q|]|x] eqn:EQ; [| |apply same_gen_refl].
  - destruct (OUT (Some q) eq_refl step) as (new & -> & F). rewrite coords_app, (coords_none (Some q) new) by exact F. rewrite app_nil_r.
    destruct (coords_from 0 (Some q) rows) as [|c0 cs] eqn:C; [apply same_gen_refl|]. destruct (last_opt (c0 :: cs)) as [cl|] eqn:L; [|apply same_gen_refl].
    assert (B : cl < length rows) by (apply last_in in L; rewrite <- C in L; apply coords_bound in L; exact L).
    unfold hdf_range, live_range. destruct (Nat.eqb c 0); [apply same_gen_refl|]. apply grown_chunks; [exact GR|exact B].
  - assert (SAME : forall k, rows_at k = rows).
    { intros k. destruct (OUT None eq_refl k) as (new & -> & F). destruct new as [|r new]; [apply app_nil_r|]. inversion F; discriminate. }
    rewrite (SAME step). destruct (Nat.leb (length rows) 1); [apply same_gen_refl|]. rewrite (still_range rows rows_at SAME). apply same_gen_refl.
Qed.
Lemma grown_load {A} (rows : list (sample A)) rows_at window n c : half_open window -> forall sections step, Forall half_open sections -> appended rows window sections rows_at ->
  same_gen (hdf_load rows window sections n c) (live_load rows_at (fun _ => window) step sections n c).
Proof.
  intros HW. induction sections as [|s rest IH]; intros step HS G; [split; constructor|]. inversion HS; subst. cbn [live_load hdf_load].
  assert (G1 : appended rows window [s] rows_at). { intros k. destruct (G k) as (new & E & F). exists new. split; [exact E|]. eapply Forall_impl; [|exact F]. intros r HR s' [<-|[]]. apply HR. left. reflexivity. }
  assert (G2 : appended rows window rest rows_at). { intros k. destruct (G k) as (new & E & F). exists new. split; [exact E|]. eapply Forall_impl; [|exact F]. intros r HR s' I. apply HR. right. exact I. }
  destruct (grown_section rows rows_at window s step n c HW H1 G1) as [A1 A2]. destruct (hdf_load_section rows window s n c) as [l1 e1]. destruct (live_section rows_at (fun _ => window) step s n c) as [l2 e2]. cbn [fst snd] in *. subst e2.
  destruct e1 as [e|]; [split; [exact A1|reflexivity]|]. cbn [gen_app]. destruct (IH (step + length l2) H2 G2) as [B1 B2]. split; [apply Forall2_app; assumption|exact B2].
Qed.
Lemma look_none {A} (rows : list (sample A)) w c nc e : forall starts i, Forall (fun ch => c_look ch = None) (fst (hdf_chunks rows w 0 c nc e i starts)).
Proof.
  induction starts as [|st rest IH]; intros i; [constructor|]. cbn [hdf_chunks]. destruct (timeframe_for_chunk _ _ _ _); [|constructor]. constructor; [reflexivity|apply IH].
Qed.
Lemma look_none_load {A} (rows : list (sample A)) window c : forall sections, Forall (fun ch => c_look ch = None) (fst (hdf_load rows window sections 0 c)).
Proof.
  assert (R : forall w s e, Forall (fun ch => c_look ch = None) (fst (hdf_range rows w 0 c s e))) by (intros; unfold hdf_range; destruct (Nat.eqb c 0); [constructor|apply look_none]).
  assert (S1 : forall s, Forall (fun ch => c_look ch = None) (fst (hdf_load_section rows window s 0 c))).
  { intros s. unfold hdf_load_section. destruct (intersection window s) as [w|]; [|constructor]. destruct (tf_empty w); [repeat constructor|]. destruct (query_terms w) as [[q|]|]; [| |constructor].
    - destruct (coords_from 0 (Some q) rows); [repeat constructor|]. destruct (last_opt _); [apply R|constructor].
    - destruct (Nat.leb (length rows) 1); [repeat constructor|apply R]. }
  induction sections as [|s rest IH]; [constructor|]. cbn [hdf_load]. specialize (S1 s). destruct (hdf_load_section rows window s 0 c) as [l [e|]]; cbn [gen_app fst] in *; [exact S1|]. apply Forall_app. split; assumption.
Qed.
Lemma grown_exact {A} (rows : list (sample A)) rows_at window sections c : half_open window -> Forall half_open sections -> appended rows window sections rows_at ->
  live_load rows_at (fun _ => window) 0 sections 0 c = hdf_load rows window sections 0 c.
Proof.
  intros HW HS G. destruct (grown_load rows rows_at window 0 c HW sections 0 HS G) as [A1 A2]. pose proof (look_none_load rows window c sections) as N.
  destruct (hdf_load rows window sections 0 c) as [l e]. destruct (live_load rows_at (fun _ => window) 0 sections 0 c) as [l' e']. cbn [fst snd] in *. subst e'. f_equal. clear - A1 N.
  induction A1 as [|a b l l' (E1 & E2 & E3) F IH]; [reflexivity|]. inversion N; subst. f_equal; [|apply IH; assumption]. destruct a as [r1 l1 t1], b as [r2 l2 t2]. cbn in *. subst. destruct l2; [destruct E3|reflexivity].
Qed.

(** Without sections, the last chunk has exactly one of the new rows. *)
Lemma live_last {A} (rows_at : nat -> list (sample A)) w n c nc e st : forall starts step i cs, live_chunks rows_at step w n c nc e i (starts ++ [st]) = (cs, None) ->
  exists init lc, cs = init ++ [lc] /\ length init = length starts /\ c_rows lc = select (rows_at (step + length starts)) st (S (if Nat.ltb e (st + c) then e else st + c)).
Proof.
  induction starts as [|s starts IH]; intros step i cs H; cbn [app live_chunks] in H.
  - destruct (timeframe_for_chunk _ _ _ _); [|discriminate H]. injection H as <-. exists [], (mkChunk (select (rows_at step) st (S (if Nat.ltb e (st + c) then e else st + c))) (look_ahead_rows (rows_at step) (select (rows_at step) st (S (if Nat.ltb e (st + c) then e else st + c))) n (S (if Nat.ltb e (st + c) then e else st + c))) a). cbn [app length]. rewrite Nat.add_0_r. repeat split.
  - destruct (timeframe_for_chunk _ _ _ _) as [t|]; [|discriminate H]. destruct (live_chunks rows_at (S step) w n c nc e (S i) (starts ++ [st])) as [cs' e'] eqn:E. unfold gen_cons in H. cbn [fst snd] in H. injection H as <- ->.
    destruct (IH _ _ _ E) as (init & lc & -> & L & R). eexists (_ :: init), lc. split; [reflexivity|]. cbn [length]. split; [rewrite L; reflexivity|]. rewrite R. f_equal. f_equal. lia.
Qed.
Lemma one_new {A} (rows : list (sample A)) rows_at x c cs : rows_at 0 = rows -> (forall k, 0 < k -> exists new, rows_at k = rows ++ x :: new) -> 1 <= c < length rows ->
  live_load rows_at (fun _ => tf_cleared) 0 [tf_cleared] 0 c = (cs, None) ->
  exists init lc k, cs = init ++ [lc] /\ 1 <= length init /\ c_rows lc = skipn k rows ++ [x] /\ k < length rows.
Proof.
  intros E0 EK C H. set (N := length rows) in *. cbn [live_load] in H. unfold live_section in H. change (intersection tf_cleared tf_cleared) with (Ok tf_cleared) in H. cbv beta iota in H. change (tf_empty tf_cleared) with false in H. change (query_terms tf_cleared) with (@Ok (option (option Z * option (Z * bool))) None) in H. cbv beta iota in H. rewrite E0 in H. fold N in H. destruct (Nat.leb_spec N 1); [lia|].
  unfold live_range in H. destruct (Nat.eqb_spec c 0); [lia|]. rewrite Nat.sub_0_r in H.
  destruct (live_chunks rows_at 0 tf_cleared 0 c (ceil_div N c) N 0 (py_range 0 N c)) as [l e] eqn:L. destruct e; [discriminate H|]. unfold gen_app in H. cbn [fst snd] in H. rewrite app_nil_r in H. injection H as <-.
  assert (NC : 2 <= ceil_div N c /\ (ceil_div N c - 1) * c < N /\ N <= ceil_div N c * c).
  { unfold ceil_div. pose proof (Nat.div_mod (N + (c - 1)) c). pose proof (Nat.mod_upper_bound (N + (c - 1)) c). set (q := (N + (c - 1)) / c) in *. set (r := (N + (c - 1)) mod c) in *. assert (N + (c - 1) = c * q + r) by lia. assert (r < c) by lia. assert (2 <= q) by nia. repeat split; nia. }
  destruct NC as (N2 & NL & NG). unfold py_range in L. rewrite Nat.sub_0_r in L. replace (ceil_div N c) with (S (ceil_div N c - 1)) in L at 2 by lia. rewrite seq_S, map_app in L. cbn [map Nat.add] in L.
  destruct (live_last _ _ _ _ _ _ _ _ _ _ _ L) as (init & lc & -> & LI & R). rewrite map_length, seq_length in LI, R. cbn [Nat.add] in R. set (k := (ceil_div N c - 1) * c) in *.
  assert (IFE : (if Nat.ltb N (k + c) then N else k + c) = N) by (destruct (Nat.ltb_spec N (k + c)); [reflexivity|]; unfold k in *; nia). rewrite IFE in R.
  destruct (EK (ceil_div N c - 1)) as [new EN]; [lia|]. rewrite EN in R. exists init, lc, k. split; [reflexivity|]. split; [lia|]. split; [|exact NL]. rewrite R. unfold select. rewrite skipn_app. fold N. replace (k - N) with 0 by lia. cbn [skipn].
  rewrite firstn_app, skipn_length. fold N. replace (S N - k - (N - k)) with 1 by lia. cbn [firstn]. rewrite firstn_all2; [reflexivity|]. rewrite skipn_length. fold N. lia.
Qed.
