(** Energy of whole loads. *)
From Verif Require Import Base TimeFrameModel TimeFrameSpec TimeFrameProofs SortLib ResultsModel ResultsSpec ResultsProofs
  StoreModel StoreSpec StoreProofs StoreProofs2 GoodSectionsProofs LoadFrames EnergyModel EnergySpec EnergyProofs.
From Coq Require Import Sorted Permutation.
Open Scope Z_scope.

(** The part of the total due to rows [df]: NaN counts 0. *)
Definition part (columns : list column) (msp : Z) (a : actype) (df : list (sample (list (option Z)))) : Z :=
  match get_total_energy columns df msp with Ok e => z_of (en_get a e) | Err _ => 0 end.

Lemma part_chunk columns msp a ch : z_of (en_get a (chunk_value columns msp ch)) = part columns msp a (c_rows ch).
Proof. unfold chunk_value, part. destruct (total_energy_ok columns (c_rows ch) msp) as (e & E & _). rewrite E. reflexivity. Qed.

Lemma part_nil columns msp a : part columns msp a [] = 0.
Proof. destruct a; reflexivity. Qed.

Lemma part_uses columns msp a q k df : uses_column columns a q k ->
  part columns msp a df =
  match q with
  | Power => joules (dropna (map (rd k) df)) msp
  | Energy => osum (map snd (map (rd k) df))
  | CumulativeEnergy =>
      match hd_error (map (rd k) df), last_opt (map (rd k) df) with
      | Some x, Some y => match snd y, snd x with Some b, Some a => b - a | _, _ => 0 end
      | _, _ => 0
      end
  | OtherQuantity _ => 0
  end.
Proof.
  intros HU. unfold part. destruct (total_energy_ok columns df msp) as (e & E & H). rewrite E. specialize (H a).
  destruct df as [|r df].
  - destruct q; destruct a; cbn in *; injection H as <-; reflexivity.
  - rewrite (energy_of_type_uses _ _ _ _ _ _ HU) in H by discriminate.
    remember (map (rd k) (r :: df)) as L eqn:EL. cbn [map] in EL. injection H as <-. subst L.
    destruct q; try reflexivity. cbn [map hd_error]. destruct (last_opt_some (rd k r) (map (rd k) df)) as [z Hz]. rewrite !Hz.
    destruct (snd z), (snd (rd k r)); reflexivity.
Qed.

(** ** Sums over the chunks of one section *)

Lemma delivered_sum columns msp a (over : sample (list (option Z)) -> Z) (P : sample (list (option Z)) -> Prop) c cs m
  (HE : forall l1 x l2, P x -> part columns msp a (l1 ++ [x]) + part columns msp a (x :: l2) = part columns msp a (l1 ++ x :: l2) + over x) :
  section_served c m cs -> Forall (fun ch => forall x r, c_rows ch = x :: r -> P x) (tl cs) ->
  sumZ (map (fun ch => part columns msp a (c_rows ch)) cs) =
  part columns msp a m + sumZ (map (fun ch => match c_rows ch with x :: _ => over x | [] => 0 end) (tl cs)).
Proof.
  intros [S1 S2] HP. destruct m as [|x m].
  - destruct (S1 eq_refl) as [t ->]. cbn [map sumZ tl c_rows]. lia.
  - destruct S2 as (E & Hsh & Hlen); [discriminate|]. rewrite <- E. apply share_sum with (P := P); [exact HE| |exact Hsh| |exact HP].
    + intros ->. discriminate.
    + eapply Forall_impl; [|exact Hlen]. cbv beta. intros ch H. destruct (c_rows ch); [cbn in H; lia|discriminate].
Qed.

Lemma load_sum columns msp a rows window sections ms n c : increasing rows -> (1 <= c)%nat -> half_open window ->
  Forall half_open sections -> Forall usable sections -> no_overlap sections ->
  Forall2 (fun s m => visible rows window s m) sections ms -> Forall2 (fun s m => servable rows window c s m) sections ms ->
  exists css, hdf_load rows window sections n c = (concat css, None) /\ Forall2 (section_served c) ms css /\
    total_energy_of columns msp a (hdf_load rows window sections n c) =
    Ok (sumZ (map (fun cs => sumZ (map (fun ch => part columns msp a (c_rows ch)) cs)) css)) /\
    Forall2 (fun s cs => hdf_load_section rows window s n c = (cs, None)) sections css.
Proof.
  intros Hinc Hc Hw Hs Hu Hn Hv Hsv.
  destruct (load_frames rows window n c Hinc Hc Hw sections ms Hs Hu Hn Hv Hsv) as (css & E & Q1 & Q2 & Q3 & _ & Q5).
  exists css. split; [exact E|]. split; [exact Q1|]. split; [|exact Q5]. rewrite E. rewrite total_of_chunks by assumption. f_equal. clear.
  induction css as [|cs css IH]; [reflexivity|]. cbn [concat map]. rewrite map_app, sumZ_app, IH. cbn [sumZ]. f_equal.
  f_equal. apply map_ext. intros ch. apply part_chunk.
Qed.

(** Rows that appear in the chunks of a section are rows of the section. *)
Lemma served_first c m (cs : list (chunk (list (option Z)))) (P : sample (list (option Z)) -> Prop) :
  section_served c m cs -> Forall P m -> Forall (fun ch => forall x r, c_rows ch = x :: r -> P x) cs.
Proof.
  intros [S1 S2] HP. destruct m as [|y m].
  - destruct (S1 eq_refl) as [t ->]. constructor; [discriminate|constructor].
  - destruct S2 as (E & Hsh & _); [discriminate|]. clear S1. revert E HP. generalize (y :: m) as l. clear y m. revert Hsh.
    induction cs as [|a [|b cs] IH]; intros Hsh l E HP; [constructor| |].
    + cbn in E. rewrite app_nil_r in E. subst l. constructor; [|constructor]. intros x r Ex. rewrite Ex in HP. exact (Forall_inv HP).
    + destruct Hsh as [(x & pre & post & Ea & Eb) Hsh]. constructor.
      * intros z r Ez. subst l. unfold unshared in HP. apply Forall_app in HP. destruct HP as [HP _]. rewrite Ez in HP. exact (Forall_inv HP).
      * apply (IH Hsh (unshared (b :: cs)) eq_refl). subst l. unfold unshared in *. cbn [map concat] in HP. rewrite Ea, Eb in HP. rewrite Eb. cbn [tl app] in *.
        rewrite <- app_assoc in HP. apply Forall_app in HP. destruct HP as [_ HP]. exact HP.
Qed.

Lemma Forall_tl {A} (P : A -> Prop) l : Forall P l -> Forall P (tl l).
Proof. intros H. destruct H; [constructor|assumption]. Qed.

(** ** Power *)

Definition has_reading (k : nat) (r : sample (list (option Z))) : Prop := nth k (snd r) None <> None.

Lemma readings_has k m s : readings k m s -> Forall (has_reading k) m.
Proof.
  induction 1 as [|r x m s [_ H] _ IH]; constructor; [|exact IH]. unfold has_reading. rewrite (nth_error_nth _ _ None H). discriminate.
Qed.

Lemma readings_rd k m s : readings k m s -> map (rd k) m = map (fun x => (fst x, Some (snd x))) s.
Proof.
  induction 1 as [|r x m s [H1 H2] _ IH]; [reflexivity|]. cbn [map]. rewrite IH. unfold rd at 1. rewrite (nth_error_nth _ _ None H2), H1. reflexivity.
Qed.

Lemma dropna_some s : dropna (map (fun x => (fst x, Some (snd x))) s) = s.
Proof. induction s as [|[t v] s IH]; cbn; [reflexivity|]. rewrite IH. reflexivity. Qed.

Lemma part_power_app columns msp a k : uses_column columns a Power k ->
  forall l1 x l2, has_reading k x -> part columns msp a (l1 ++ [x]) + part columns msp a (x :: l2) = part columns msp a (l1 ++ x :: l2) + 0.
Proof.
  intros HU l1 x l2 Hx. rewrite !(part_uses _ _ _ _ _ _ HU). rewrite !map_app. cbn [map]. rewrite !dropna_app.
  unfold has_reading in Hx. destruct (nth k (snd x) None) as [v|] eqn:E; [|contradiction].
  assert (Ex : forall q, dropna (rd k x :: q) = (fst x, v) :: dropna q) by (intros q; unfold rd; rewrite E; reflexivity).
  rewrite !Ex. rewrite (joules_app msp (dropna (map (rd k) l1)) (fst x, v) (dropna (map (rd k) l2))). cbn [dropna]. lia.
Qed.

Lemma readings_increasing k m s : readings k m s -> increasing m -> increasing s.
Proof.
  induction 1 as [|r x m s [H1 H2] H IH]; intros Hi; [exact I|]. destruct H as [|r' x' m s [H3 H4] H]; [exact I|].
  cbn [increasing] in *. destruct Hi as [Hi1 Hi2]. split; [lia|]. apply IH. exact Hi2.
Qed.

Lemma is_filter_increasing {A} P (l m : list (sample A)) : is_filter P l m -> increasing l -> increasing m.
Proof. intros H Hi. apply increasing_sorted. apply increasing_sorted in Hi. exact (is_filter_sorted _ _ _ H Hi). Qed.

Lemma load_power columns msp a k rows window sections ms ss es n c : 0 <= msp -> uses_column columns a Power k ->
  increasing rows -> (1 <= c)%nat -> half_open window ->
  Forall half_open sections -> Forall usable sections -> no_overlap sections ->
  Forall2 (fun s m => visible rows window s m) sections ms -> Forall2 (fun s m => servable rows window c s m) sections ms ->
  Forall2 (readings k) ms ss -> Forall2 (is_energy msp) ss es ->
  total_energy_of columns msp a (hdf_load rows window sections n c) = Ok (sumZ es).
Proof.
  intros Hm HU Hinc Hc Hw Hs Hu Hn Hv Hsv Hr He.
  destruct (load_sum columns msp a rows window sections ms n c) as (css & _ & Q & E & _); try assumption. rewrite E. f_equal. clear E Hs Hu Hn Hsv.
  revert sections ss es Hv Hr He. induction Q as [|m cs ms css Q1 Q2 IH]; intros sections ss es Hv Hr He.
  - inversion Hr; subst. inversion He; subst. reflexivity.
  - inversion Hr as [|? s ? ss' R1 R2]; subst. inversion He as [|? e ? es' E1 E2]; subst. inversion Hv as [|w ? sections' ? V1 V2]; subst.
    cbn [map sumZ]. rewrite (IH sections' ss' es' V2 R2 E2). f_equal.
    rewrite (delivered_sum columns msp a (fun _ => 0) (has_reading k) c cs m (part_power_app _ _ _ _ HU) Q1).
    2:{ apply Forall_tl. eapply served_first; [exact Q1|]. eapply readings_has. exact R1. }
    assert (Z0 : forall l : list (chunk (list (option Z))), sumZ (map (fun ch => match c_rows ch with _ :: _ => 0 | [] => 0 end) l) = 0).
    { clear. induction l as [|ch l IH]; [reflexivity|]. cbn [map sumZ]. rewrite IH. destruct (c_rows ch); reflexivity. }
    rewrite Z0, Z.add_0_r. rewrite (part_uses _ _ _ _ _ _ HU), (readings_rd _ _ _ R1), dropna_some.
    apply (is_energy_unique msp s); [|exact E1]. apply joules_is_energy; [exact Hm|].
    eapply readings_increasing; [exact R1|]. eapply is_filter_increasing; [exact V1|exact Hinc].
Qed.

(** With missing readings energy can only get lost, never be invented. *)
Lemma joules_lose msp l1 l2 : 0 <= msp -> increasing (l1 ++ l2) -> Forall (fun x => 0 <= snd x) (l1 ++ l2) ->
  joules l1 msp + joules l2 msp <= joules (l1 ++ l2) msp.
Proof.
  intros Hm. induction l1 as [|[t v] l1 IH]; intros Hi HF; [cbn; lia|]. cbn [app] in *. apply Forall_cons_iff in HF. destruct HF as [F1 F2]. cbn [snd] in F1.
  destruct l1 as [|[t' v'] l1].
  - cbn [app] in *. destruct l2 as [|[t' v'] l2]; [cbn; lia|]. cbn [increasing fst] in Hi. cbn [joules]. nia.
  - cbn [app increasing fst] in *. destruct Hi as [Hi1 Hi2]. specialize (IH Hi2 F2).
    assert (E : forall q, joules ((t, v) :: (t', v') :: q) msp = Z.min (t' - t) msp * v + joules ((t', v') :: q) msp) by reflexivity.
    rewrite !E. lia.
Qed.

Lemma dropna_increasing s : increasing s -> increasing (dropna s).
Proof.
  intros H. apply increasing_sorted. apply increasing_sorted in H. induction s as [|[t o] s IH]; [constructor|].
  apply StronglySorted_inv in H. destruct H as [H1 H2]. specialize (IH H1). destruct o as [v|]; [|exact IH]. cbn. constructor; [exact IH|].
  clear IH H1. induction s as [|[t' o'] s IH]; [constructor|]. apply Forall_cons_iff in H2. destruct H2 as [H2 H3]. destruct o' as [v'|]; cbn; [constructor|]; auto.
Qed.

Lemma increasing_app_r {A} (l1 l2 : list (sample A)) : increasing (l1 ++ l2) -> increasing l2.
Proof.
  induction l1 as [|x l1 IH]; intros H; [exact H|]. apply IH. destruct (l1 ++ l2) as [|y l] eqn:E; [destruct l1; cbn in E; try discriminate; subst; exact I|].
  cbn [app] in H. rewrite E in H. exact (proj2 H).
Qed.

Lemma chunks_lose msp k : 0 <= msp -> forall cs, share_one_row cs -> increasing (unshared cs) ->
  Forall (fun r => forall v, nth k (snd r) None = Some v -> 0 <= v) (unshared cs) ->
  sumZ (map (fun ch => joules (dropna (map (rd k) (c_rows ch))) msp) cs) <= joules (dropna (map (rd k) (unshared cs))) msp.
Proof.
  intros Hm. induction cs as [|a [|b cs] IH]; intros Hsh Hi HF; [cbn; lia|cbn; rewrite app_nil_r; lia|].
  destruct Hsh as [(x & pre & post & Ea & Eb) Hsh].
  assert (Eu : unshared (a :: b :: cs) = pre ++ unshared (b :: cs)).
  { unfold unshared. cbn [map concat]. rewrite Ea, Eb. cbn [tl]. rewrite <- app_assoc. reflexivity. }
  rewrite Eu in Hi, HF. assert (Hi' := increasing_app_r _ _ Hi). assert (HF' := HF). apply Forall_app in HF'. destruct HF' as [_ HF'].
  specialize (IH Hsh Hi' HF'). rewrite Eu. cbn [map sumZ]. cbn [map sumZ] in IH. 
  apply Z.le_trans with (joules (dropna (map (rd k) (c_rows a))) msp + joules (dropna (map (rd k) (unshared (b :: cs)))) msp); [lia|]. clear IH.
  rewrite Ea. 
  assert (Ebr : exists rest, unshared (b :: cs) = x :: rest) by (eexists; unfold unshared; rewrite Eb; reflexivity).
  destruct Ebr as [rest Er]. rewrite Er in *. rewrite !map_app, !dropna_app. cbn [map].
  destruct (nth k (snd x) None) as [v|] eqn:En.
  - assert (Ex : forall q, dropna (rd k x :: q) = (fst x, v) :: dropna q) by (intros q; unfold rd; rewrite En; reflexivity).
    rewrite !Ex. rewrite (joules_app msp (dropna (map (rd k) pre)) (fst x, v) (dropna (map (rd k) rest))). cbn [dropna]. lia.
  - assert (Ex : forall q, dropna (rd k x :: q) = dropna q) by (intros q; unfold rd; rewrite En; reflexivity).
    rewrite !Ex. cbn [dropna]. rewrite app_nil_r. apply joules_lose; [exact Hm| |].
    + rewrite <- (Ex (map (rd k) rest)), <- dropna_app. change (rd k x :: map (rd k) rest) with (map (rd k) (x :: rest)). rewrite <- map_app.
      apply dropna_increasing. clear -Hi. revert Hi. generalize (pre ++ x :: rest) as l. induction l as [|y [|z l] IH]; intros H; [exact I|exact I|].
      cbn [map increasing rd fst] in *. destruct H as [H1 H2]. split; [exact H1|]. apply IH. exact H2.
    + rewrite <- (Ex (map (rd k) rest)), <- dropna_app. change (rd k x :: map (rd k) rest) with (map (rd k) (x :: rest)). rewrite <- map_app.
      revert HF. clear. generalize (pre ++ x :: rest) as l. induction l as [|y l IH]; intros H; [constructor|]. apply Forall_cons_iff in H. destruct H as [H1 H2].
      cbn [map]. unfold rd at 1. destruct (nth k (snd y) None) as [u|] eqn:E; cbn [dropna]; [constructor; [exact (H1 u eq_refl)|]|]; apply IH; exact H2.
Qed.

Lemma load_power_le columns msp a k rows window sections ms es n c : 0 <= msp -> uses_column columns a Power k ->
  increasing rows -> (1 <= c)%nat -> half_open window ->
  Forall half_open sections -> Forall usable sections -> no_overlap sections ->
  Forall2 (fun s m => visible rows window s m) sections ms -> Forall2 (fun s m => servable rows window c s m) sections ms ->
  Forall (fun r => forall v, nth k (snd r) None = Some v -> 0 <= v) rows ->
  Forall2 (fun m e => exists s, present k m s /\ is_energy msp s e) ms es ->
  exists t, total_energy_of columns msp a (hdf_load rows window sections n c) = Ok t /\ t <= sumZ es.
Proof.
  intros Hm HU Hinc Hc Hw Hs Hu Hn Hv Hsv Hpos He.
  destruct (load_sum columns msp a rows window sections ms n c) as (css & _ & Q & E & _); try assumption. rewrite E. eexists. split; [reflexivity|]. clear E Hs Hu Hn Hsv.
  revert sections es Hv He. induction Q as [|m cs ms css Q1 Q2 IH]; intros sections es Hv He.
  - inversion He; subst. cbn. lia.
  - inversion He as [|? e ? es' (s & P1 & E1) E2]; subst. inversion Hv as [|w ? sections' ? V1 V2]; subst.
    cbn [map sumZ]. specialize (IH sections' es' V2 E2).
    assert (Hmi : increasing m) by (eapply is_filter_increasing; [exact V1|exact Hinc]).
    assert (Es : s = dropna (map (rd k) m)).
    { clear -P1. induction P1 as [|r v m s H1 H2 IH|r m s H1 H2 IH]; cbn [map]; [reflexivity| |]; unfold rd at 1.
      - rewrite H1. cbn [dropna]. rewrite <- IH. reflexivity.
      - rewrite H1. cbn [dropna]. exact IH. }
    subst s.
    assert (He' : joules (dropna (map (rd k) m)) msp = e).
    { apply (is_energy_unique msp (dropna (map (rd k) m))); [|exact E1]. apply joules_is_energy; [exact Hm|].
      apply dropna_increasing. clear -Hmi. revert Hmi. generalize m as l. induction l as [|y [|z l] IH]; intros H; [exact I|exact I|].
      cbn [map increasing rd fst] in *. destruct H as [H1 H2]. split; [exact H1|]. apply IH. exact H2. }
    enough (sumZ (map (fun ch => part columns msp a (c_rows ch)) cs) <= e) by lia. rewrite <- He'.
    rewrite (map_ext _ (fun ch => joules (dropna (map (rd k) (c_rows ch))) msp)) by (intros ch; exact (part_uses columns msp a Power k (c_rows ch) HU)).
    destruct Q1 as [S1 S2]. destruct m as [|x m].
    + destruct (S1 eq_refl) as [t ->]. cbn. lia.
    + destruct S2 as (Eu & Hsh & _); [discriminate|]. rewrite <- Eu in *. apply chunks_lose; [exact Hm|exact Hsh|exact Hmi|].
      rewrite Forall_forall in *. intros r Hr. apply Hpos. apply (is_filter_in _ _ _ _ V1) in Hr. tauto.
Qed.

(** ** Cumulative energy *)

Lemma last_opt_app {A} (l1 : list A) x l2 : last_opt (l1 ++ x :: l2) = last_opt (x :: l2).
Proof.
  induction l1 as [|y l1 IH]; [reflexivity|]. cbn [app]. destruct (l1 ++ x :: l2) eqn:E; [destruct l1; discriminate|].
  rewrite <- IH. reflexivity.
Qed.

Lemma part_cumulative_app columns msp a k : uses_column columns a CumulativeEnergy k ->
  forall cs m c, section_served c m cs -> Forall (has_reading k) m ->
  sumZ (map (fun ch => part columns msp a (c_rows ch)) cs) = part columns msp a m.
Proof.
  intros HU cs m c [S1 S2] HP. destruct m as [|x m].
  - destruct (S1 eq_refl) as [t ->]. cbn [map sumZ c_rows]. lia.
  - destruct S2 as (E & Hsh & Hlen); [discriminate|]. rewrite <- E in *. clear S1 E x m.
    assert (Hne : Forall (fun ch => c_rows ch <> []) cs).
    { eapply Forall_impl; [|exact Hlen]. cbv beta. intros ch H. destruct (c_rows ch); [cbn in H; lia|discriminate]. }
    clear Hlen. induction cs as [|b [|b' cs] IH]; [destruct a; reflexivity| |].
    + cbn [map sumZ]. cbn [unshared map concat]. rewrite app_nil_r. lia.
    + destruct Hsh as [(x & pre & post & Ea & Eb) Hsh].
      assert (Eu : unshared (b :: b' :: cs) = pre ++ unshared (b' :: cs)).
      { unfold unshared. cbn [map concat]. rewrite Ea, Eb. cbn [tl]. rewrite <- app_assoc. reflexivity. }
      rewrite Eu in HP. assert (HP2 := HP). apply Forall_app in HP2. destruct HP2 as [HPp HP2]. specialize (IH HP2 Hsh (Forall_inv_tail Hne)).
      cbn [map sumZ] in *. rewrite IH, Eu. clear IH.
      assert (Ebr : exists rest, unshared (b' :: cs) = x :: rest) by (eexists; unfold unshared; rewrite Eb; reflexivity).
      destruct Ebr as [rest Er]. rewrite Er in *. rewrite Ea. rewrite !(part_uses _ _ _ _ _ _ HU). rewrite !map_app. cbn [map].
      rewrite !last_opt_app. assert (L1 : last_opt [rd k x] = Some (rd k x)) by reflexivity. rewrite L1.
      destruct (last_opt_some (rd k x) (map (rd k) rest)) as [z Hz]. rewrite Hz.
      assert (Hzr : snd z <> None).
      { apply last_opt_in in Hz. change (rd k x :: map (rd k) rest) with (map (rd k) (x :: rest)) in Hz. apply in_map_iff in Hz. destruct Hz as (r & <- & Hr).
        rewrite Forall_forall in HP2. exact (HP2 r Hr). }
      pose proof (Forall_inv HP2) as Hx. unfold has_reading in Hx. 
      destruct pre as [|p pre]; cbn [map app hd_error rd snd].
      * destruct (snd z) as [vz|]; [|contradiction]. destruct (nth k (snd x) None) as [vx|]; [lia|contradiction].
      * pose proof (Forall_inv HPp) as Hp. unfold has_reading in Hp.
        destruct (snd z) as [vz|]; [|contradiction]. destruct (nth k (snd x) None) as [vx|]; [|contradiction].
        destruct (nth k (snd p) None) as [vp|]; [lia|contradiction].
Qed.

Lemma load_cumulative columns msp a k rows window sections ms ss es n c : uses_column columns a CumulativeEnergy k ->
  increasing rows -> (1 <= c)%nat -> half_open window ->
  Forall half_open sections -> Forall usable sections -> no_overlap sections ->
  Forall2 (fun s m => visible rows window s m) sections ms -> Forall2 (fun s m => servable rows window c s m) sections ms ->
  Forall2 (readings k) ms ss -> Forall2 advance ss es ->
  total_energy_of columns msp a (hdf_load rows window sections n c) = Ok (sumZ es).
Proof.
  intros HU Hinc Hc Hw Hs Hu Hn Hv Hsv Hr He.
  destruct (load_sum columns msp a rows window sections ms n c) as (css & _ & Q & E & _); try assumption. rewrite E. f_equal. clear E Hs Hu Hn Hv Hsv.
  revert ss es Hr He. induction Q as [|m cs ms css Q1 Q2 IH]; intros ss es Hr He.
  - inversion Hr; subst. inversion He; subst. reflexivity.
  - inversion Hr as [|? s ? ss' R1 R2]; subst. inversion He as [|? e ? es' E1 E2]; subst.
    cbn [map sumZ]. rewrite (IH ss' es' R2 E2). f_equal. clear IH.
    rewrite (part_cumulative_app columns msp a k HU cs m c Q1 (readings_has _ _ _ R1)).
    rewrite (part_uses _ _ _ _ _ _ HU), (readings_rd _ _ _ R1). destruct E1 as [[-> ->]|(x & y & r & r' & Ex & Ey & ->)]; [reflexivity|].
    assert (Hl : last_opt s = Some y) by (rewrite Ey; apply last_opt_snoc). rewrite last_opt_map, Hl, Ex. reflexivity.
Qed.

(** ** Energy per interval *)

Lemma osum_app a b : osum (a ++ b) = osum a + osum b.
Proof. rewrite !osum_sum, map_app, sumZ_app. reflexivity. Qed.

Lemma part_energy_app columns msp a k : uses_column columns a Energy k ->
  forall l1 x l2, True -> part columns msp a (l1 ++ [x]) + part columns msp a (x :: l2) = part columns msp a (l1 ++ x :: l2) + z_of (nth k (snd x) None).
Proof.
  intros HU l1 x l2 _. rewrite !(part_uses _ _ _ _ _ _ HU). rewrite !map_app. cbn [map]. rewrite !osum_app.
  assert (E : forall q, osum (snd (rd k x) :: q) = z_of (nth k (snd x) None) + osum q) by (intros q; unfold rd; cbn [snd]; destruct (nth k (snd x) None); reflexivity).
  rewrite !E. cbn [osum]. lia.
Qed.

Lemma load_interval_sections columns msp a k rows window sections ms n c : uses_column columns a Energy k ->
  increasing rows -> (1 <= c)%nat -> half_open window ->
  Forall half_open sections -> Forall usable sections -> no_overlap sections ->
  Forall2 (fun s m => visible rows window s m) sections ms -> Forall2 (fun s m => servable rows window c s m) sections ms ->
  exists css, hdf_load rows window sections n c = (concat css, None) /\ Forall2 (section_served c) ms css /\
  total_energy_of columns msp a (hdf_load rows window sections n c) =
  Ok (readings_sum k (concat ms) + readings_sum k (concat (map (fun cs => concat (map (fun ch => firstn 1 (c_rows ch)) (tl cs))) css))) /\
  Forall2 (fun s cs => hdf_load_section rows window s n c = (cs, None)) sections css.
Proof.
  intros HU Hinc Hc Hw Hs Hu Hn Hv Hsv.
  destruct (load_sum columns msp a rows window sections ms n c) as (css & E0 & Q & E & Q5); try assumption.
  exists css. split; [exact E0|]. split; [exact Q|]. split; [|exact Q5]. rewrite E. f_equal. clear -Q HU.
  induction Q as [|m cs ms css Q1 Q2 IH]; [reflexivity|]. cbn [map sumZ concat]. rewrite IH. clear IH.
  rewrite (delivered_sum columns msp a (fun x => z_of (nth k (snd x) None)) (fun _ => True) c cs m (part_energy_app _ _ _ _ HU) Q1).
  2:{ rewrite Forall_forall. auto. }
  assert (RS : forall l l', readings_sum k (l ++ l') = readings_sum k l + readings_sum k l').
  { intros l l'. unfold readings_sum. rewrite map_app, sumZ_app. reflexivity. }
  rewrite !RS. rewrite (part_uses _ _ _ _ _ _ HU).
  assert (E1 : osum (map snd (map (rd k) m)) = readings_sum k m).
  { rewrite osum_sum, !map_map. unfold readings_sum. f_equal. }
  assert (E2 : sumZ (map (fun ch : chunk (list (option Z)) => match c_rows ch with [] => 0 | x :: _ => z_of (nth k (snd x) None) end) (tl cs)) =
               readings_sum k (concat (map (fun ch => firstn 1 (c_rows ch)) (tl cs)))).
  { generalize (tl cs) as l. induction l as [|ch l IH]; [reflexivity|]. cbn [map sumZ concat]. rewrite RS, IH. f_equal.
    destruct (c_rows ch) as [|r q]; [reflexivity|]. unfold readings_sum. cbn. unfold z_of. destruct (nth k (snd r) None); lia. }
  rewrite E1, E2. lia.
Qed.

Lemma load_interval columns msp a k rows window sections ms n c : uses_column columns a Energy k ->
  increasing rows -> (1 <= c)%nat -> half_open window ->
  Forall half_open sections -> Forall usable sections -> no_overlap sections ->
  Forall2 (fun s m => visible rows window s m) sections ms -> Forall2 (fun s m => servable rows window c s m) sections ms ->
  exists css, hdf_load rows window sections n c = (concat css, None) /\ Forall2 (section_served c) ms css /\
  total_energy_of columns msp a (hdf_load rows window sections n c) =
  Ok (readings_sum k (concat ms) + readings_sum k (concat (map (fun cs => concat (map (fun ch => firstn 1 (c_rows ch)) (tl cs))) css))).
Proof.
  intros HU Hinc Hc Hw Hs Hu Hn Hv Hsv.
  destruct (load_interval_sections columns msp a k rows window sections ms n c) as (css & E0 & Q & E & _); try assumption.
  exists css. auto.
Qed.

Lemma chunks_length {A} (rows : list (sample A)) w n c nc e starts : forall i, (length (fst (hdf_chunks rows w n c nc e i starts)) <= length starts)%nat.
Proof.
  induction starts as [|st starts IH]; intros i; cbn [hdf_chunks]; [cbn; lia|]. cbv zeta.
  match goal with |- context [match ?x with Ok _ => _ | Err _ => _ end] => destruct x as [t|] end; [|cbn; lia].
  unfold gen_cons. cbn [fst length]. specialize (IH (S i)). lia.
Qed.

Lemma coords_last_lt {A} q (rows : list (sample A)) : forall b i, In i (coords_from b q rows) -> (b <= i < b + length rows)%nat.
Proof.
  induction rows as [|r rows IH]; intros b i; cbn [coords_from]; [intros []|]. intros H.
  assert (i = b \/ In i (coords_from (S b) q rows)).
  { destruct (terms_hold q (fst r)); [destruct H as [<-|H]; auto|auto]. }
  destruct H0 as [->|H0]; [cbn; lia|]. apply IH in H0. cbn. lia.
Qed.

Lemma section_one_chunk {A} (rows : list (sample A)) window s n c : (length rows <= c)%nat -> (1 <= c)%nat ->
  (length (fst (hdf_load_section rows window s n c)) <= 1)%nat.
Proof.
  intros Hl Hc.
  assert (Hr : forall w a e, (e - a <= c)%nat -> (length (fst (hdf_range rows w n c a e)) <= 1)%nat).
  { intros w a e H. unfold hdf_range. destruct (Nat.eqb c 0); [cbn; lia|]. eapply Nat.le_trans; [apply chunks_length|].
    unfold py_range. rewrite map_length, seq_length. unfold ceil_div. 
    destruct (Nat.eq_dec (e - a) 0) as [->|Hne].
    - rewrite Nat.div_small by lia. lia.
    - assert (H2 : ((e - a + (c - 1)) / c < 2)%nat) by (apply Nat.div_lt_upper_bound; lia). lia. }
  unfold hdf_load_section. destruct (intersection window s) as [w|]; [|cbn; lia]. destruct (tf_empty w); [cbn; lia|].
  destruct (query_terms w) as [[q|]|]; [| |cbn; lia].
  - destruct (coords_from 0 (Some q) rows) as [|c0 cs] eqn:E; [cbn; lia|]. destruct (last_opt (c0 :: cs)) as [cl|] eqn:El; [|cbn; lia].
    apply Hr. apply last_opt_in in El. rewrite <- E in El. apply coords_last_lt in El. lia.
  - cbv zeta. destruct (Nat.leb (length rows) 1); [cbn; lia|]. apply Hr. lia.
Qed.

Lemma load_interval_one columns msp a k rows window sections ms n c : uses_column columns a Energy k ->
  increasing rows -> (1 <= c)%nat -> half_open window ->
  Forall half_open sections -> Forall usable sections -> no_overlap sections ->
  Forall2 (fun s m => visible rows window s m) sections ms -> Forall2 (fun s m => servable rows window c s m) sections ms ->
  (length rows <= c)%nat ->
  total_energy_of columns msp a (hdf_load rows window sections n c) = Ok (readings_sum k (concat ms)).
Proof.
  intros HU Hinc Hc Hw Hs Hu Hn Hv Hsv Hl.
  destruct (load_interval_sections columns msp a k rows window sections ms n c) as (css & E0 & Q & E & Q5); try assumption.
  rewrite E. f_equal. replace (concat (map _ css)) with (@nil (sample (list (option Z)))); [unfold readings_sum at 2; cbn; lia|].
  clear -Q5 Hl Hc. induction Q5 as [|s cs sections css H H' IH]; [reflexivity|]. cbn [map concat]. rewrite <- IH. rewrite app_nil_r.
  pose proof (section_one_chunk rows window s n c Hl Hc) as L. rewrite H in L. cbn [fst] in L. destruct cs as [|x [|y cs]]; [reflexivity|reflexivity|cbn in L; lia].
Qed.

(** ** Statements about readings *)

Lemma integral msp (m : list (sample (list (option Z)))) k s : 0 <= msp -> increasing s -> present k m s ->
  is_energy msp s (energy_for_power_series (map (fun r => (fst r, nth k (snd r) None)) m) msp).
Proof.
  intros Hm Hi Hp. unfold energy_for_power_series.
  assert (Es : dropna (map (fun r => (fst r, nth k (snd r) None)) m) = s).
  { clear -Hp. induction Hp as [|r v m s H1 H2 IH|r m s H1 H2 IH]; cbn [map]; [reflexivity| |]; rewrite H1; cbn [dropna]; rewrite IH; reflexivity. }
  rewrite Es. apply joules_is_energy; assumption.
Qed.

Lemma energy_nonneg msp s : 0 <= msp -> increasing s -> Forall (fun x => 0 <= snd x) s -> forall e, is_energy msp s e -> 0 <= e.
Proof.
  intros Hm Hi Hp e He. rewrite (is_energy_unique _ _ _ _ He (joules_is_energy msp s Hm Hi)). apply joules_nonneg; assumption.
Qed.

Lemma energy_monotone msp msp' s s' : 0 <= msp -> msp <= msp' -> increasing s -> Forall (fun x => 0 <= snd x) s ->
  Forall2 (fun x y => fst x = fst y /\ snd x <= snd y) s s' ->
  forall e e', is_energy msp s e -> is_energy msp' s' e' -> e <= e'.
Proof.
  intros Hm Hmm Hi Hp HF e e' He He'.
  assert (Hi' : increasing s').
  { clear -Hi HF. induction HF as [|x y s s' [H1 _] HF IH]; [exact I|]. destruct HF as [|x' y' s s' [H2 _] HF]; [exact I|].
    cbn [increasing] in *. destruct Hi as [Hi1 Hi2]. split; [lia|]. apply IH, Hi2. }
  rewrite (is_energy_unique _ _ _ _ He (joules_is_energy msp s Hm Hi)).
  rewrite (is_energy_unique _ _ _ _ He' (joules_is_energy msp' s' ltac:(lia) Hi')).
  apply Z.le_trans with (joules s msp'); [apply joules_monotone_msp; assumption|apply joules_monotone; [lia|assumption|assumption]].
Qed.

Lemma nth_error_column columns (c : column) : In c columns -> exists k, nth_error columns k = Some c.
Proof. intros H. apply In_nth_error. exact H. Qed.

Lemma preference columns a : NoDup columns ->
  (exists q k, uses_column columns a q k) \/
  ((forall q, In (q, Some a) columns -> exists n, q = OtherQuantity n) /\
   forall msp rows, rows <> [] -> exists e, get_total_energy columns rows msp = Ok e /\ en_get a e = None).
Proof.
  intros HN. pose proof (select_spec columns a) as S. destruct (select_quantity columns a) as [q|] eqn:E.
  - left. destruct q; [| | |destruct S].
    + destruct (nth_error_column _ _ S) as [k Hk]. exists CumulativeEnergy, k. split; [exact Hk|]. split; [exact HN|left; reflexivity].
    + destruct S as [S S2]. destruct (nth_error_column _ _ S) as [k Hk]. exists Energy, k. split; [exact Hk|]. split; [exact HN|right; left; auto].
    + destruct S as [S S2]. destruct (nth_error_column _ _ S) as [k Hk]. exists Power, k. split; [exact Hk|]. split; [exact HN|right; right; auto].
  - right. split; [exact S|]. intros msp rows Hr. destruct (total_energy_ok columns rows msp) as (e & E1 & E2). exists e. split; [exact E1|].
    specialize (E2 a). destruct rows; [contradiction|]. unfold energy_of_type in E2. rewrite E in E2. congruence.
Qed.

(** ** Counterexamples *)

Definition one_section := mkTF (Some 0) (Some 100) true false false.
Lemma one_usable : usable one_section.
Proof. split; [reflexivity|]. intros s e [= <-] [= <-]. lia. Qed.

Lemma one_column q : In q [CumulativeEnergy; Energy; Power] -> uses_column [(q, Some Active)] Active q 0.
Proof.
  intros H. split; [reflexivity|]. split; [constructor; [intros []|constructor]|].
  destruct H as [<-|[<-|[<-|[]]]]; [left; reflexivity|right; left|right; right]; (split; [reflexivity|]); try split; intros [H|[]]; discriminate.
Qed.

Lemma missing_reading : exists columns msp rows section t t',
  uses_column columns Active Power 0 /\ increasing rows /\ half_open section /\ usable section /\
  total_energy_of columns msp Active (hdf_load rows tf_cleared [section] 0 2) = Ok t /\
  total_energy_of columns msp Active (hdf_load rows tf_cleared [section] 0 100) = Ok t' /\ t < t'.
Proof.
  exists [(Power, Some Active)], 20, [(0, [Some 10]); (1, [Some 10]); (2, [None]); (3, [Some 10]); (4, [Some 10])], one_section.
  eexists _, _. split; [apply one_column; cbn; auto|]. split; [cbn; lia|]. split; [reflexivity|]. split; [exact one_usable|].
  split; [vm_compute; reflexivity|]. split; [vm_compute; reflexivity|]. reflexivity.
Qed.

Lemma cumulative_missing : exists columns rows section msp t t',
  uses_column columns Active CumulativeEnergy 0 /\ increasing rows /\ half_open section /\ usable section /\
  total_energy_of columns msp Active (hdf_load rows tf_cleared [section] 0 2) = Ok t /\
  total_energy_of columns msp Active (hdf_load rows tf_cleared [section] 0 100) = Ok t' /\ t = 0 /\ t' = 30.
Proof.
  exists [(CumulativeEnergy, Some Active)], [(0, [Some 10]); (1, [Some 20]); (2, [None]); (3, [Some 30]); (4, [Some 40])], one_section, 20.
  eexists _, _. split; [apply one_column; cbn; auto|]. split; [cbn; lia|]. split; [reflexivity|]. split; [exact one_usable|].
  split; [vm_compute; reflexivity|]. split; [vm_compute; reflexivity|]. split; reflexivity.
Qed.

Lemma interval_double : exists columns rows section msp,
  uses_column columns Active Energy 0 /\ increasing rows /\ half_open section /\ usable section /\ visible rows tf_cleared section rows /\
  readings_sum 0 rows = 10 /\
  total_energy_of columns msp Active (hdf_load rows tf_cleared [section] 0 100) = Ok 10 /\
  total_energy_of columns msp Active (hdf_load rows tf_cleared [section] 0 1) = Ok 15.
Proof.
  exists [(Energy, Some Active)], [(0, [Some 1]); (1, [Some 2]); (2, [Some 3]); (3, [Some 4])], one_section, 20.
  split; [apply one_column; cbn; auto|]. split; [cbn; lia|]. split; [reflexivity|]. split; [exact one_usable|].
  split; [|split; [reflexivity|split; vm_compute; reflexivity]].
  repeat (constructor; [split; (split; [reflexivity|]); split; cbn; intros ? [=]; lia|]). constructor.
Qed.
