(** Proofs about the two store formats. *)
From Coq Require Import Sorted.
From Verif Require Import Base TimeFrameModel TimeFrameSpec TimeFrameProofs SortLib ResultsModel ResultsSpec ResultsProofs
  StoreModel StoreSpec StoreProofs StoreProofs2 GoodSectionsProofs LoadFrames EnergyModel EnergySpec EnergyProofs EnergyProofs2
  FormatsModel FormatsSpec.
Open Scope Z_scope.

Lemma drop_nothing {A} (L : list (list (sample A))) : forall p, Forall (fun c => c <> []) L -> StronglySorted slt (concat L) ->
  (forall x q, In x (concat L) -> p = Some q -> q < fst x) -> concat (drop_overlaps p L) = concat L.
Proof.
  induction L as [|c L IH]; intros p HN HS Hp; [reflexivity|]. apply Forall_cons_iff in HN. destruct HN as [N1 N2].
  cbn [concat] in HS, Hp. apply sorted_app in HS. destruct HS as (S1 & S2 & S3). cbn [drop_overlaps concat]. f_equal.
  - destruct p as [q|]; [|reflexivity]. destruct c as [|x c]; [reflexivity|].
    destruct (fst x <=? q) eqn:E; [|reflexivity]. apply Z.leb_le in E.
    specialize (Hp x q). cbn in Hp. specialize (Hp (or_introl eq_refl) eq_refl). lia.
  - apply IH; [exact N2|exact S2|]. intros y q Hy Hq. destruct (exists_last N1) as (l & z & ->). rewrite last_opt_snoc in Hq.
    injection Hq as <-. apply S3; [|exact Hy]. apply in_or_app. right. left. reflexivity.
Qed.

Lemma filter_nonempty {A} (L : list (list A)) : Forall (fun c => c <> []) L -> filter nonempty L = L.
Proof. induction 1 as [|c L H HF IH]; [reflexivity|]. cbn. destruct c; [congruence|]. cbn. rewrite IH. reflexivity. Qed.

Lemma ms_sorted {A} (rows : list (sample A)) window sections ms : increasing rows -> sections_in_order sections ->
  Forall2 (visible rows window) sections ms -> StronglySorted slt (concat ms).
Proof.
  intros Hinc Hord HV. eapply is_filter_sorted; [apply filter_concat_exact; eassumption|]. apply increasing_sorted. exact Hinc.
Qed.

Lemma csv_load_out {A} (rows : list (sample A)) window n c sections ms : increasing rows -> (1 <= c)%nat ->
  Forall2 (visible rows window) sections ms -> Forall (csv_servable rows window c) sections ->
  exists css, csv_load rows window sections n c = (concat css, None) /\
    Forall2 (fun m cs => concat (map c_rows cs) = m /\
       Forall (fun ch => (2 <= length (c_rows ch) <= c)%nat) cs /\ Forall (look_ahead_right rows n) cs /\
       Forall frame_of_rows cs) ms css.
Proof.
  intros Hinc Hc HV HS. destruct (cut_exists c rows Hc) as [bs Hbs].
  apply (csv_load_all rows window n c bs Hinc Hc Hbs sections ms HV).
  intros s b k Hs Hb Hk. rewrite Forall_forall in HS. exact (HS s Hs bs b k Hbs Hb Hk).
Qed.

Lemma out_concat {A} rows n c (ms : list (list (sample A))) css : Forall2 (fun m cs => concat (map c_rows cs) = m /\
       Forall (fun ch => (2 <= length (c_rows ch) <= c)%nat) cs /\ Forall (look_ahead_right rows n) cs /\
       Forall frame_of_rows cs) ms css ->
  concat (map c_rows (concat css)) = concat ms /\ Forall (fun l => l <> []) (map c_rows (concat css)) /\ Forall frame_of_rows (concat css).
Proof.
  induction 1 as [|m cs ms css (Q1 & Q2 & _ & Q3) HF (I1 & I2 & I3)]; [repeat split; constructor|]. cbn [concat]. rewrite map_app, concat_app, I1, Q1.
  split; [reflexivity|]. split; [|apply Forall_app; split; assumption]. apply Forall_app. split; [|exact I2].
  apply Forall_map. eapply Forall_impl; [|exact Q2]. cbv beta. intros ch H E. rewrite E in H. cbn in H. lia.
Qed.

Lemma csv_all_data {A} (rows : list (sample A)) window sections n c ms :
  increasing rows -> (1 <= c)%nat -> sections_in_order sections ->
  Forall2 (visible rows window) sections ms -> Forall (csv_servable rows window c) sections ->
  exists m, is_filter (fun r => inTF window (fst r) /\ covers sections (fst r)) rows m /\
    power_series_all_data (csv_load rows window sections n c) = Ok (match m with [] => None | _ => Some m end).
Proof.
  intros Hinc Hc Hord HV HS. destruct (csv_load_out rows window n c sections ms Hinc Hc HV HS) as (css & E & HF).
  exists (concat ms). split; [apply filter_concat_exact; assumption|]. unfold power_series_all_data. rewrite E. cbn [fst snd].
  destruct (out_concat _ _ _ _ _ HF) as (Q1 & Q2 & _). rewrite filter_nonempty by exact Q2.
  pose proof (ms_sorted rows window sections ms Hinc Hord HV) as HSo.
  destruct (map c_rows (concat css)) as [|l L] eqn:EL.
  - cbn in Q1. rewrite <- Q1. reflexivity.
  - rewrite drop_nothing; [|exact Q2|rewrite Q1; exact HSo|discriminate]. rewrite Q1.
    destruct (concat ms) eqn:Em; [|reflexivity]. exfalso. apply Forall_cons_iff in Q2. destruct Q2 as [Q2 _]. cbn in Q1.
    apply app_eq_nil in Q1. tauto.
Qed.

Lemma same_data {A} (rows : list (sample A)) window sections ms n c n' c' :
  increasing rows -> (1 <= c)%nat -> (1 <= c')%nat -> half_open window -> Forall half_open sections -> sections_in_order sections ->
  Forall2 (visible rows window) sections ms -> Forall2 (servable rows window c) sections ms ->
  Forall (csv_servable rows window c') sections ->
  power_series_all_data (csv_load rows window sections n' c') = power_series_all_data (hdf_load rows window sections n c).
Proof.
  intros Hinc Hc Hc' Hw Hs Hord HV HS HC.
  destruct (all_data_exact rows window sections n c ms Hinc Hc Hw Hs Hord HV HS) as (m & M1 & M2).
  destruct (csv_all_data rows window sections n' c' ms Hinc Hc' Hord HV HC) as (m' & M1' & M2').
  rewrite M2, M2', (is_filter_unique _ _ _ _ M1 M1'). reflexivity.
Qed.

(** ** Time frames *)

Lemma csv_ends_spec {A} csize : (1 <= csize)%nat -> forall fuel (rest : list (sample A)) s e y, (length rest < fuel)%nat -> 
  last_opt rest = Some y -> csv_ends fuel csize rest (Some s, e) = Ok (Some s, Some (fst y)).
Proof.
  intros Hc. induction fuel as [|fuel IH]; intros rest s e y Hf Hl; [lia|]. destruct rest as [|x rest]; [discriminate|].
  destruct csize as [|c]; [lia|]. cbn [csv_ends fst]. cbn [bind].
  destruct (last_opt_some x (firstn c rest)) as [z Hz]. rewrite firstn_S_cons. rewrite Hz. cbn [bind]. cbn [skipn].
  destruct (skipn c rest) as [|u r] eqn:E.
  - assert (Hr : firstn c rest = rest). { apply firstn_all2. apply (f_equal (@length _)) in E. rewrite skipn_length in E. cbn in E. lia. }
    rewrite Hr, Hl in Hz. injection Hz as <-. cbn in Hf. destruct fuel; [lia|]. reflexivity.
  - apply IH.
    + apply (f_equal (@length _)) in E. rewrite skipn_length in E. cbn [length] in *. lia.
    + rewrite <- Hl. rewrite <- (firstn_skipn c rest) at 1. rewrite E. symmetry. rewrite app_comm_cons. apply (last_opt_app (x :: firstn c rest)).
Qed.

Lemma same_timeframe {A} (rows : list (sample A)) window c : (1 <= c)%nat -> csv_get_timeframe rows window c = hdf_get_timeframe rows window.
Proof.
  intros Hc. destruct rows as [|x rows]; [reflexivity|]. unfold csv_get_timeframe, hdf_get_timeframe.
  destruct (last_opt_some x rows) as [y Hy]. rewrite Hy.
  replace (csv_ends (S (length (x :: rows))) c (x :: rows) (None, None)) with (csv_ends (S (length (x :: rows))) c (x :: rows) (Some (fst x), None)).
  - rewrite (csv_ends_spec c Hc _ _ _ _ y); [reflexivity|cbn; lia|exact Hy].
  - destruct c as [|c]; [lia|]. reflexivity.
Qed.

(** ** Energy *)

Lemma frames_apart {A} (cs : list (chunk A)) : Forall frame_of_rows cs -> StronglySorted slt (concat (map c_rows cs)) ->
  Forall (fun ch => (2 <= length (c_rows ch))%nat) cs ->
  Forall (fun ch => usable (c_tf ch)) cs /\ no_overlap (map c_tf cs).
Proof.
  intros HF HS HL. assert (HB : forall j ch, nth_error cs j = Some ch -> exists s e, bounded (c_tf ch) s e /\ first_time (c_rows ch) s /\ last_time (c_rows ch) e).
  { intros j ch H. apply nth_error_In in H. rewrite Forall_forall in HF. exact (HF ch H). }
  split.
  - rewrite Forall_forall in *. intros ch Hch. destruct (HF ch Hch) as (s & e & (B1 & B2 & B3 & B4) & _). split; [exact B3|].
    unfold ordered. rewrite B1, B2. try lia. intros; congruence || lia.
  - assert (HO : forall cs, StronglySorted slt (concat (map (@c_rows A) cs)) -> forall j k a b x y, (j < k)%nat -> nth_error cs j = Some a -> nth_error cs k = Some b ->
      In x (c_rows a) -> In y (c_rows b) -> fst x < fst y).
    { clear. induction cs as [|ch cs IH]; intros HS j k a b x y Hjk Ha Hb Hx Hy; [destruct j; discriminate|]. cbn [map concat] in HS.
      apply sorted_app in HS. destruct HS as (S1 & S2 & S3). destruct k as [|k]; [lia|]. cbn in Hb. destruct j as [|j]; cbn in Ha.
      - injection Ha as ->. apply S3; [exact Hx|]. apply in_concat. exists (c_rows b). split; [apply in_map; eapply nth_error_In; exact Hb|exact Hy].
      - apply (IH S2 j k a b); auto. lia. }
    intros j k a b i Ha Hb Hia Hib. rewrite nth_error_map in Ha, Hb.
    destruct (nth_error cs j) as [ca|] eqn:Ea; [|discriminate]. destruct (nth_error cs k) as [cb|] eqn:Eb; [|discriminate]. cbn in Ha, Hb. injection Ha as <-. injection Hb as <-.
    destruct (HB _ _ Ea) as (s & e & B & (x & r & Ex & Fx) & (y & r' & Ey & Fy)). destruct (HB _ _ Eb) as (s' & e' & B' & (x' & q & Ex' & Fx') & (y' & q' & Ey' & Fy')).
    assert (I1 : s <= i < e) by (destruct B as (B1 & B2 & B3); unfold inTF in Hia; rewrite B1, B2 in Hia; intuition).
    assert (I2 : s' <= i < e') by (destruct B' as (B1 & B2 & B3); unfold inTF in Hib; rewrite B1, B2 in Hib; intuition).
    destruct (Nat.lt_trichotomy j k) as [H|[H|H]]; [exfalso|exact H|exfalso].
    + assert (fst y < fst x'); [|lia]. apply (HO cs HS j k ca cb); auto; [rewrite Ey; apply in_or_app; right; left; reflexivity|rewrite Ex'; left; reflexivity].
    + assert (fst y' < fst x); [|lia]. apply (HO cs HS k j cb ca); auto; [rewrite Ey'; apply in_or_app; right; left; reflexivity|rewrite Ex; left; reflexivity].
Qed.

Lemma csv_sum columns msp a rows window sections ms n c : increasing rows -> (1 <= c)%nat -> sections_in_order sections ->
  Forall2 (visible rows window) sections ms -> Forall (csv_servable rows window c) sections ->
  exists css, csv_load rows window sections n c = (concat css, None) /\
    Forall2 (fun m cs => concat (map c_rows cs) = m) ms css /\
    total_energy_of columns msp a (csv_load rows window sections n c) =
    Ok (sumZ (map (fun cs => sumZ (map (fun ch => part columns msp a (c_rows ch)) cs)) css)).
Proof.
  intros Hinc Hc Hord HV HS. destruct (csv_load_out rows window n c sections ms Hinc Hc HV HS) as (css & E & HF).
  exists css. split; [exact E|]. split; [clear -HF; induction HF as [|m cs ms css [H _] HF IH]; constructor; assumption|].
  destruct (out_concat _ _ _ _ _ HF) as (Q1 & _ & Q3).
  assert (Q4 : Forall (fun ch => (2 <= length (c_rows ch))%nat) (concat css)).
  { clear -HF. induction HF as [|m cs ms css (_ & H & _) HF IH]; [constructor|]. cbn [concat]. apply Forall_app. split; [|exact IH].
    eapply Forall_impl; [|exact H]. cbv beta. intros; lia. }
  destruct (frames_apart (concat css)) as [F1 F2]; [exact Q3|rewrite Q1; eapply ms_sorted; eassumption|exact Q4|].
  rewrite E, total_of_chunks by assumption. f_equal. clear.
  induction css as [|cs css IH]; [reflexivity|]. cbn [concat map]. rewrite map_app, sumZ_app, IH. cbn [sumZ]. f_equal.
  f_equal. apply map_ext. intros ch. apply part_chunk.
Qed.

(** Cutting readings into separate pieces loses the intervals between them. *)
Lemma pieces_lose msp k : 0 <= msp -> forall cs : list (chunk (list (option Z))), increasing (concat (map c_rows cs)) ->
  Forall (fun r => forall v, nth k (snd r) None = Some v -> 0 <= v) (concat (map c_rows cs)) ->
  sumZ (map (fun ch => joules (dropna (map (rd k) (c_rows ch))) msp) cs) <= joules (dropna (map (rd k) (concat (map c_rows cs)))) msp.
Proof.
  intros Hm. induction cs as [|ch cs IH]; intros Hi HF; [cbn; lia|]. cbn [map concat sumZ] in *. rewrite map_app, dropna_app.
  apply Forall_app in HF. destruct HF as [F1 F2]. specialize (IH (increasing_app_r _ _ Hi) F2).
  pose proof (joules_lose msp (dropna (map (rd k) (c_rows ch))) (dropna (map (rd k) (concat (map c_rows cs)))) Hm) as J.
  enough (joules (dropna (map (rd k) (c_rows ch))) msp + joules (dropna (map (rd k) (concat (map c_rows cs)))) msp <= 
    joules (dropna (map (rd k) (c_rows ch)) ++ dropna (map (rd k) (concat (map c_rows cs)))) msp) by lia.
  apply J.
  - rewrite <- dropna_app, <- map_app. apply dropna_increasing. clear -Hi. revert Hi. generalize (c_rows ch ++ concat (map c_rows cs)) as l.
    induction l as [|y [|z l] IH]; intros H; [exact I|exact I|]. cbn [map increasing rd fst] in *. destruct H as [H1 H2]. split; [exact H1|]. apply IH. exact H2.
  - assert (G : forall l : list (sample (list (option Z))), Forall (fun r => forall v, nth k (snd r) None = Some v -> 0 <= v) l -> Forall (fun x => 0 <= snd x) (dropna (map (rd k) l))).
    { clear. induction 1 as [|r l H HF IH]; [constructor|]. cbn [map]. unfold rd at 1. destruct (nth k (snd r) None) as [v|] eqn:E; cbn [dropna]; [constructor; [cbn; auto|exact IH]|exact IH]. }
    apply Forall_app. split; apply G; assumption.
Qed.

Lemma energy_unbounded {A B} (R : A -> B -> Prop) (P : A -> Prop) l m : Forall2 R l m -> (forall a b, R a b -> P a) -> Forall P l.
Proof. intros H HP. induction H; constructor; eauto. Qed.

Lemma order_no_overlap sections : sections_in_order sections -> no_overlap sections.
Proof.
  intros H j k a b i Ha Hb Hi Hi'. destruct (Nat.lt_trichotomy j k) as [L|[L|L]]; [|exact L|]; exfalso.
  - pose proof (H j k a b i i L Ha Hb Hi Hi'). lia.
  - pose proof (H k j b a i i L Hb Ha Hi' Hi). lia.
Qed.

Lemma csv_energy_le columns msp a k rows window sections ms ss es n c :
  0 <= msp -> uses_column columns a Power k -> increasing rows -> (1 <= c)%nat -> sections_in_order sections ->
  Forall2 (visible rows window) sections ms -> Forall (csv_servable rows window c) sections ->
  Forall (fun r => forall v, nth k (snd r) None = Some v -> 0 <= v) rows ->
  Forall2 (readings k) ms ss -> Forall2 (is_energy msp) ss es ->
  exists t, total_energy_of columns msp a (csv_load rows window sections n c) = Ok t /\ t <= sumZ es.
Proof.
  intros Hm HU Hinc Hc Hord HV HS HP HR HE.
  destruct (csv_sum columns msp a rows window sections ms n c Hinc Hc Hord HV HS) as (css & _ & HF & E). rewrite E. eexists. split; [reflexivity|].
  clear E HS Hord. revert sections ss es HV HR HE. induction HF as [|m cs ms css Q1 HF IH]; intros sections ss es HV HR HE.
  - inversion HR; subst. inversion HE; subst. cbn. lia.
  - inversion HR as [|? s ? ss' R1 R2]; subst. inversion HE as [|? e ? es' E1 E2]; subst. inversion HV as [|w ? sections' ? V1 V2]; subst.
    cbn [map sumZ]. specialize (IH sections' ss' es' V2 R2 E2).
    enough (sumZ (map (fun ch => part columns msp a (c_rows ch)) cs) <= e) by lia.
    rewrite (map_ext _ (fun ch => joules (dropna (map (rd k) (c_rows ch))) msp)) by (intros ch; exact (part_uses columns msp a Power k (c_rows ch) HU)).
    assert (Hmi : increasing (concat (map c_rows cs))) by (eapply is_filter_increasing; [exact V1|exact Hinc]).
    etransitivity; [apply pieces_lose; [exact Hm|exact Hmi|]|].
    + rewrite Forall_forall in *. intros r Hr. apply HP. apply (is_filter_in _ _ _ _ V1) in Hr. tauto.
    + rewrite (readings_rd _ _ _ R1), dropna_some. apply Z.eq_le_incl. apply (is_energy_unique msp s); [|exact E1]. apply joules_is_energy; [exact Hm|].
      eapply readings_increasing; [exact R1|exact Hmi].
Qed.

Lemma gen_cons_fst {A} (x : A) g : fst (gen_cons x g) = x :: fst g. Proof. destruct g; reflexivity. Qed.

Lemma csv_one_chunk {A} (rows : list (sample A)) window s n c : (length rows <= c)%nat -> (1 <= c)%nat ->
  (length (fst (csv_load_section rows window s n c)) <= 1)%nat.
Proof.
  intros Hl Hc. unfold csv_load_section. destruct (intersection window s) as [w|]; [|cbn; lia]. destruct (Nat.eqb c 0); [cbn; lia|].
  destruct rows as [|x rows]; [cbn; lia|]. cbn [csv_chunks]. rewrite (skipn_all2 (n := c)) by exact Hl.
  replace (csv_chunks (length (x :: rows)) (x :: rows) [] w n c 1) with (@nil (chunk A), @None exn) by reflexivity.
  destruct (filter _ _) as [|y l]; [cbn; lia|]. destruct (last_opt (y :: l)) as [z|]; [|cbn; lia]. destruct (mk _ _); cbn; lia.
Qed.

Lemma csv_energy_one columns msp a k rows window sections ms ss es n c :
  0 <= msp -> uses_column columns a Power k -> increasing rows -> (1 <= c)%nat -> (length rows <= c)%nat -> sections_in_order sections ->
  Forall2 (visible rows window) sections ms -> Forall (csv_servable rows window c) sections ->
  Forall2 (readings k) ms ss -> Forall2 (is_energy msp) ss es ->
  total_energy_of columns msp a (csv_load rows window sections n c) = Ok (sumZ es).
Proof.
  intros Hm HU Hinc Hc Hl Hord HV HS HR HE.
  destruct (cut_exists c rows Hc) as [bs Hbs].
  assert (HX : exists css, csv_load rows window sections n c = (concat css, None) /\
    Forall2 (fun m cs => concat (map c_rows cs) = m /\ (length cs <= 1)%nat /\ Forall frame_of_rows cs /\ Forall (fun ch => (2 <= length (c_rows ch))%nat) cs) ms css).
  { clear HR HE Hord ss es. induction HV as [|s m sections ms V1 HV IH]; [exists []; split; [reflexivity|constructor]|].
    apply Forall_cons_iff in HS. destruct HS as [S1 S2]. destruct (IH S2) as (css & E & HF).
    destruct (csv_section rows window s m n c bs Hinc Hc V1 Hbs) as [C1 _].
    destruct C1 as (cs & Hcs & J1 & J2 & J3 & J4). { intros b k' Hb Hk. exact (S1 bs b k' Hbs Hb Hk). }
    exists (cs :: css). split; [cbn [csv_load]; rewrite Hcs, E; reflexivity|]. constructor; [|exact HF]. split; [exact J1|]. split; [|split; [exact J4|]].
    - pose proof (csv_one_chunk rows window s n c Hl Hc) as H. rewrite Hcs in H. exact H.
    - eapply Forall_impl; [|exact J2]. cbv beta. intros; lia. }
  destruct HX as (css & E & HF).
  assert (Q : concat (map c_rows (concat css)) = concat ms /\ Forall frame_of_rows (concat css) /\ Forall (fun ch => (2 <= length (c_rows ch))%nat) (concat css)).
  { clear -HF. induction HF as [|m cs ms css (Q1 & _ & Q3 & Q4) HF (I1 & I2 & I3)]; [repeat split; constructor|]. cbn [concat]. rewrite map_app, concat_app, I1, Q1.
    split; [reflexivity|]. split; apply Forall_app; split; assumption. }
  destruct Q as (Q1 & Q3 & Q4). destruct (frames_apart (concat css)) as [F1 F2]; [exact Q3|rewrite Q1; eapply ms_sorted; eassumption|exact Q4|].
  rewrite E, total_of_chunks by assumption. f_equal. clear E Q1 Q3 Q4 F1 F2 HS Hord.
  revert sections ss es HV HR HE. induction HF as [|m cs ms css (Q1 & Q2 & _) HF IH]; intros sections ss es HV HR HE.
  - inversion HR; subst. inversion HE; subst. reflexivity.
  - inversion HR as [|? s ? ss' R1 R2]; subst. inversion HE as [|? e ? es' E1 E2]; subst. inversion HV as [|w ? sections' ? V1 V2]; subst.
    cbn [concat map]. rewrite map_app, sumZ_app. rewrite (IH sections' ss' es' V2 R2 E2). cbn [sumZ]. f_equal.
    assert (Hmi : increasing (concat (map c_rows cs))) by (eapply is_filter_increasing; [exact V1|exact Hinc]).
    rewrite (map_ext _ (fun ch => joules (dropna (map (rd k) (c_rows ch))) msp)) by (intros ch; rewrite part_chunk; exact (part_uses columns msp a Power k (c_rows ch) HU)).
    transitivity (joules (dropna (map (rd k) (concat (map c_rows cs)))) msp).
    + destruct cs as [|ch [|ch' cs]]; [reflexivity| |cbn in Q2; lia]. cbn [map concat sumZ]. rewrite app_nil_r. lia.
    + rewrite (readings_rd _ _ _ R1), dropna_some. apply (is_energy_unique msp s); [|exact E1]. apply joules_is_energy; [exact Hm|].
      eapply readings_increasing; [exact R1|exact Hmi].
Qed.

Lemma same_energy columns msp a k rows window sections ms ss es n c n' c' :
  0 <= msp -> uses_column columns a Power k -> increasing rows -> (1 <= c)%nat -> (1 <= c')%nat -> (length rows <= c')%nat ->
  half_open window -> Forall half_open sections -> Forall usable sections -> sections_in_order sections ->
  Forall2 (visible rows window) sections ms -> Forall2 (servable rows window c) sections ms -> Forall (csv_servable rows window c') sections ->
  Forall2 (readings k) ms ss -> Forall2 (is_energy msp) ss es ->
  total_energy_of columns msp a (csv_load rows window sections n' c') = Ok (sumZ es) /\
  total_energy_of columns msp a (hdf_load rows window sections n c) = Ok (sumZ es).
Proof.
  intros. split; [eapply csv_energy_one; eassumption|]. eapply load_power; try eassumption. apply order_no_overlap. assumption.
Qed.

Lemma less_energy columns msp a k rows window sections ms ss es n c n' c' :
  0 <= msp -> uses_column columns a Power k -> increasing rows -> (1 <= c)%nat -> (1 <= c')%nat ->
  half_open window -> Forall half_open sections -> Forall usable sections -> sections_in_order sections ->
  Forall2 (visible rows window) sections ms -> Forall2 (servable rows window c) sections ms -> Forall (csv_servable rows window c') sections ->
  Forall (fun r => forall v, nth k (snd r) None = Some v -> 0 <= v) rows ->
  Forall2 (readings k) ms ss -> Forall2 (is_energy msp) ss es ->
  exists t t', total_energy_of columns msp a (hdf_load rows window sections n c) = Ok t /\
    total_energy_of columns msp a (csv_load rows window sections n' c') = Ok t' /\ t' <= t.
Proof.
  intros. destruct (csv_energy_le columns msp a k rows window sections ms ss es n' c') as (t' & E' & L); try assumption.
  exists (sumZ es), t'. split; [|split; assumption]. eapply load_power; try eassumption. apply order_no_overlap. assumption.
Qed.

(** ** Witnesses *)

Lemma cut_blocks {A} c (rows : list A) bs : (1 <= c)%nat -> cut c rows bs ->
  match rows with [] => bs = [] | _ => exists bs', bs = firstn c rows :: bs' /\ cut c (skipn c rows) bs' end.
Proof.
  intros Hc H. destruct H as [|b N L|b rest bs L N C].
  - reflexivity.
  - destruct b as [|x b]; [congruence|]. exists []. rewrite firstn_all2, skipn_all2 by exact L. split; [reflexivity|constructor].
  - destruct b as [|x b]; [cbn in L; lia|]. cbn [List.app]. exists bs. rewrite app_comm_cons.
    split.
    + f_equal. rewrite firstn_app, L, Nat.sub_diag, firstn_all2 by lia. cbn. rewrite app_nil_r. reflexivity.
    + rewrite skipn_app, L, Nat.sub_diag, skipn_all2 by lia. exact C.
Qed.

Lemma cut_det {A} c : (1 <= c)%nat -> forall k (rows : list A) bs bs', (length rows <= k)%nat -> cut c rows bs -> cut c rows bs' -> bs = bs'.
Proof.
  intros Hc. induction k as [|k IH]; intros rows bs bs' Hk H H'; apply (cut_blocks c _ _ Hc) in H; apply (cut_blocks c _ _ Hc) in H'.
  - destruct rows; [congruence|cbn in Hk; lia].
  - destruct rows as [|x rows]; [congruence|]. destruct H as (r & -> & H). destruct H' as (r' & -> & H'). f_equal.
    apply (IH (skipn c (x :: rows))); [|exact H|exact H']. rewrite skipn_length. cbn [length] in *. lia.
Qed.

Lemma csv_servable_by {A} (rows : list (sample A)) window c section bs : (1 <= c)%nat -> cut c rows bs ->
  Forall (fun b => length (filter (fun r => inTFb window (fst r) && inTFb section (fst r)) b) <> 1%nat) bs ->
  csv_servable rows window c section.
Proof.
  intros Hc HC HF bs' b k HC' Hb Hk. rewrite (cut_det c Hc (length rows) rows bs' bs (le_n _) HC' HC) in Hb.
  rewrite Forall_forall in HF. specialize (HF b Hb).
  assert (E : k = filter (fun r => inTFb window (fst r) && inTFb section (fst r)) b); [|rewrite E; exact HF].
  apply (is_filter_filter (fun r => inTF window (fst r) /\ inTF section (fst r))); [|exact Hk].
  intros x. rewrite Bool.andb_true_iff, !inTFb_spec. reflexivity.
Qed.

Definition w_rows : list (sample (list (option Z))) := [(0, [Some 10]); (1, [Some 10]); (2, [Some 10]); (3, [Some 10])].
Definition w_section : tf := mkTF (Some 0) (Some 4) true false false.
Definition w_closed : tf := mkTF (Some 0) (Some 3) true false true.

Lemma energy_differs : exists columns msp rows section t t',
  uses_column columns Active Power 0 /\ increasing rows /\ half_open section /\ usable section /\
  csv_servable rows tf_cleared 2 section /\
  total_energy_of columns msp Active (hdf_load rows tf_cleared [section] 0 2) = Ok t /\
  total_energy_of columns msp Active (csv_load rows tf_cleared [section] 0 2) = Ok t' /\ t' < t.
Proof.
  exists [(Power, Some Active)], 5, w_rows, w_section, 30, 20.
  split; [apply one_column; cbn; tauto|]. split; [cbn; lia|]. split; [reflexivity|]. split; [split; [reflexivity|intros s e [= <-] [= <-]; lia]|].
  split; [|split; [reflexivity|split; [reflexivity|lia]]].
  apply (csv_servable_by _ _ _ _ [[(0, [Some 10]); (1, [Some 10])]; [(2, [Some 10]); (3, [Some 10])]]); [lia| |].
  - apply (cut_cons 2 [(0, [Some 10]); (1, [Some 10])] [(2, [Some 10]); (3, [Some 10])]); [reflexivity|discriminate|]. apply cut_last; [discriminate|cbn; lia].
  - repeat constructor; cbn; lia.
Qed.

Lemma end_differs : exists (rows : list (sample Z)) section m m',
  increasing rows /\ tf_incl section = true /\ csv_servable rows tf_cleared 10 section /\
  power_series_all_data (hdf_load rows tf_cleared [section] 0 10) = Ok (Some m) /\
  power_series_all_data (csv_load rows tf_cleared [section] 0 10) = Ok (Some m') /\ (length m' < length m)%nat.
Proof.
  exists [(0, 5); (1, 6); (2, 7); (3, 8)], w_closed, [(0, 5); (1, 6); (2, 7); (3, 8)], [(0, 5); (1, 6); (2, 7)].
  split; [cbn; lia|]. split; [reflexivity|]. split; [|split; [reflexivity|split; [reflexivity|cbn; lia]]].
  apply (csv_servable_by _ _ _ _ [[(0, 5); (1, 6); (2, 7); (3, 8)]]); [lia| |].
  - apply cut_last; [discriminate|cbn; lia].
  - repeat constructor; cbn; lia.
Qed.

(** A section with one stored row: nothing from one format, an exception from
    the other. *)
Lemma one_row_differs : exists (rows : list (sample Z)) section,
  increasing rows /\ half_open section /\
  power_series_all_data (hdf_load rows tf_cleared [section] 0 10) = Ok None /\
  power_series_all_data (csv_load rows tf_cleared [section] 0 10) = Err ValueError.
Proof.
  exists [(0, 5); (10, 6); (20, 7)], (mkTF (Some 5) (Some 15) true false false).
  split; [cbn; lia|]. split; [reflexivity|]. split; reflexivity.
Qed.
