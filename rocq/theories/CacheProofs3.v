From Coq Require Import Lia Bool.
From Verif Require Import Base TimeFrameModel TimeFrameSpec SortLib StoreModel StoreSpec ResultsModel ResultsSpec EnergyModel KeyModel CacheModel CacheSpec CacheProofs CacheProofs2.
Import List.
Open Scope list_scope.
Open Scope Z_scope.

(** ** Energies from the HDF store *)
Lemma inside_bounded window t : inside window t -> is_bounded t.
Proof. intros H. apply H. Qed.
Lemma good_nil {A} (stat : Z -> Z -> option A) same : good_cache stat same [].
Proof. split; constructor. Qed.
Lemma hdf_history rows columns window msp c h : (length rows <= c)%nat -> (1 <= c)%nat ->
  Forall (fun q => fst q = [] /\ proper_request (inside window) (snd q)) h ->
  Forall2 (fun q a => exists d d', a = Ok d /\ fst (get_stat energy_stat (hdf_energies rows columns window msp c []) [] (snd q) []) = Ok d' /\
      equivalent_tables same_energies d d' /\ energy_combined d = energy_combined d')
    h (fst (serve energy_stat (hdf_energies rows columns window msp c) h [])).
Proof.
  intros C1 C2 F.
  destruct (serve_thm energy_stat (hdf_energies rows columns window msp c) (inside window) (energy_of_span rows columns msp c []) same_energies (inside_bounded window) same_energies_equivalence h) with (cache := @nil (row energies)) as [_ R]; [|apply good_nil|].
  - eapply Forall_impl; [|exact F]. intros [ac l] [E P]. cbn in *. subst ac. split; [exact P|]. split; [apply hdf_whole; assumption|apply energy_storable].
  - assert (X : forall l, Forall (fun q : list actype * list tf => fst q = [] /\ proper_request (inside window) (snd q)) h -> Forall2 (fun q a => exists d d', a = Ok d /\ fst (get_stat energy_stat (hdf_energies rows columns window msp c (fst q)) (fst q) (snd q) []) = Ok d' /\ equivalent_tables same_energies d d' /\ answer (energy_of_span rows columns msp c []) same_energies (snd q) d) h l ->
      Forall2 (fun q a => exists d d', a = Ok d /\ fst (get_stat energy_stat (hdf_energies rows columns window msp c []) [] (snd q) []) = Ok d' /\ equivalent_tables same_energies d d' /\ energy_combined d = energy_combined d') h l); [|apply X; [exact F|exact R]].
    clear. intros l F R. induction R as [|[ac s] a h l (d & d' & -> & E & Q & _) R IH]; [constructor|]. apply Forall_cons_iff in F. destruct F as [[E0 _] F]. cbn in E0. subst ac. constructor; [|apply IH, F]. exists d, d'. cbn in *. split; [reflexivity|]. split; [exact E|]. split; [exact Q|apply same_combined, Q].
Qed.
Definition is_asked (l : list tf) (s e : Z) : bool := existsb (fun t => oeqb (tf_start t) (Some s) && oeqb (tf_end t) (Some e)) l.
Lemma asked_spec l s e t : In t l -> bounded t s e -> is_asked l s e = true.
Proof. intros I (S & E & _). unfold is_asked. apply existsb_exists. exists t. rewrite S, E. cbn. rewrite !Z.eqb_refl. auto. Qed.
Lemma hdf_one_type rows columns window msp c a h : (length rows <= c)%nat -> (1 <= c)%nat ->
  Forall (fun q => fst q = [a] /\ proper_request (inside window) (snd q)) h ->
  (forall t u v, In t (requested h) -> In (u, v) (hdf_energies rows columns window msp c [a] t) -> en_get a v <> None) ->
  Forall2 (fun q r => exists d d', r = Ok d /\ fst (get_stat energy_stat (hdf_energies rows columns window msp c [a]) [a] (snd q) []) = Ok d' /\
      equivalent_tables same_energies d d' /\ energy_combined d = energy_combined d')
    h (fst (serve energy_stat (hdf_energies rows columns window msp c) h [])).
Proof.
  intros C1 C2 F HD. set (ok := fun t => inside window t /\ In t (requested h)). set (stat := fun s e => if is_asked (requested h) s e then energy_of_span rows columns msp c [a] s e else None).
  assert (ALL : forall t, In t (requested h) -> inside window t).
  { intros t I. apply in_flat_map in I. destruct I as (q & Q & I). rewrite Forall_forall in F. destruct (F q Q) as [_ [P _]]. rewrite Forall_forall in P. apply P, I. }
  assert (WH : whole ok (hdf_energies rows columns window msp c [a]) stat).
  { intros t s e [IN I] B. unfold stat. rewrite (asked_spec _ s e t I B). apply hdf_whole; assumption. }
  assert (SV : storable energy_stat stat (same_for a) [a]).
  { apply single_storable. intros s e v E. unfold stat in E. destruct (is_asked (requested h) s e) eqn:AS; [|discriminate]. unfold is_asked in AS. apply existsb_exists in AS. destruct AS as (t & I & E'). apply andb_true_iff in E'. destruct E' as [E1 E2]. apply oeqb_iff in E1, E2. destruct (ALL t I) as ((s' & e' & B) & X). assert (B' := B). destruct B' as (Y1 & Y2 & _). assert (s' = s) by congruence. assert (e' = e) by congruence. subst s' e'.
    assert (W := hdf_whole rows columns window msp c [a] C1 C2 t s e (ALL t I) B). rewrite E in W. destruct W as (u & W & _). apply (HD t u v I). rewrite W. left. reflexivity. }
  destruct (serve_thm energy_stat (hdf_energies rows columns window msp c) ok stat (same_for a) (fun t H => inside_bounded window t (proj1 H)) (same_for_equivalence a) h) with (cache := @nil (row energies)) as [_ R]; [|apply good_nil|].
  - rewrite Forall_forall. intros [ac l] Q. rewrite Forall_forall in F. destruct (F _ Q) as [E [P N]]. cbn in *. subst ac. split; [split; [|exact N]|split; assumption]. rewrite Forall_forall in *. intros t I. split; [apply P, I|]. apply in_flat_map. exists ([a], l). auto.
  - clear WH SV HD ALL. clearbody stat ok. clear ok. induction R as [|[ac s] r h l (d & d' & -> & E & Q & _) R IH]; [constructor|]. apply Forall_cons_iff in F. destruct F as [[E0 _] F]. cbn in E0. subst ac. constructor; [|apply IH, F]. exists d, d'. cbn in *. split; [reflexivity|]. split; [exact E|]. assert (X : equivalent_tables same_energies d d') by (clear - Q; induction Q as [|? ? ? ? (A & B & C & _) Q IH]; constructor; auto). split; [exact X|apply same_combined, X].
Qed.

Lemma served_equal chunks (h : list (list actype * list tf)) ac l : Forall (fun q => fst q = ac) h ->
  Forall2 (fun q r => exists d d', r = Ok d /\ fst (get_stat energy_stat (chunks ac) ac (snd q) []) = Ok d' /\ equivalent_tables same_energies d d' /\ energy_combined d = energy_combined d') h l ->
  map combined_answer l = map (fun q => combined_answer (fst (get_stat energy_stat (chunks (fst q)) (fst q) (snd q) []))) h /\ Forall (fun r => exists v, combined_answer r = Ok v) l.
Proof.
  intros F R. induction R as [|[ac' s] r h l (d & d' & -> & E & _ & C) R IH]; [split; [reflexivity|constructor]|]. apply Forall_cons_iff in F. destruct F as [E0 F]. cbn in E0. subst ac'. destruct (IH F) as [IH1 IH2]. split.
  - cbn [map]. rewrite IH1. f_equal. cbn [fst snd] in *. rewrite E. cbn. f_equal. exact C.
  - constructor; [exists (energy_combined d); reflexivity|exact IH2].
Qed.
Lemma all_types rows columns window msp c h : (length rows <= c)%nat -> (1 <= c)%nat ->
  Forall (fun q => fst q = [] /\ proper_request (inside window) (snd q)) h ->
  with_cache (hdf_energies rows columns window msp c) h = from_scratch (hdf_energies rows columns window msp c) h /\ Forall (fun r => exists v, r = Ok v) (with_cache (hdf_energies rows columns window msp c) h).
Proof.
  intros C1 C2 F. destruct (served_equal (hdf_energies rows columns window msp c) h [] _ ltac:(eapply Forall_impl; [|exact F]; intros q X; apply X) (hdf_history rows columns window msp c h C1 C2 F)) as [E G]. split; [exact E|]. unfold with_cache. apply Forall_map. exact G.
Qed.
Lemma one_type rows columns window msp c a h : (length rows <= c)%nat -> (1 <= c)%nat ->
  Forall (fun q => fst q = [a] /\ proper_request (inside window) (snd q)) h ->
  (forall t u v, In t (requested h) -> In (u, v) (hdf_energies rows columns window msp c [a] t) -> en_get a v <> None) ->
  with_cache (hdf_energies rows columns window msp c) h = from_scratch (hdf_energies rows columns window msp c) h /\ Forall (fun r => exists v, r = Ok v) (with_cache (hdf_energies rows columns window msp c) h).
Proof.
  intros C1 C2 F H. destruct (served_equal (hdf_energies rows columns window msp c) h [a] _ ltac:(eapply Forall_impl; [|exact F]; intros q X; apply X) (hdf_one_type rows columns window msp c a h C1 C2 F H)) as [E G]. split; [exact E|]. unfold with_cache. apply Forall_map. exact G.
Qed.
Lemma dropout_history chunks (ok : tf -> Prop) stat h : (forall t, ok t -> is_bounded t) -> (forall ac, whole ok (chunks ac) stat) -> Forall (fun q => proper_request ok (snd q)) h ->
  fst (serve dropout_stat chunks h []) = map (fun q => fst (get_stat dropout_stat (chunks (fst q)) (fst q) (snd q) [])) h /\
  Forall2 (fun q r => exists d, r = Ok d /\ answer stat eq (snd q) d) h (fst (serve dropout_stat chunks h [])).
Proof.
  intros OKB W F. destruct (serve_thm dropout_stat chunks ok stat eq OKB eq_equivalence h) with (cache := @nil (row dropout)) as [_ R]; [|apply good_nil|].
  - eapply Forall_impl; [|exact F]. intros [ac l] P. split; [exact P|]. split; [apply W|apply dropout_storable].
  - clear F. induction R as [|q r h l (d & d' & -> & E & Q & AN) R IH]; [split; [reflexivity|constructor]|]. destruct IH as [IH1 IH2]. split.
    + cbn [map]. rewrite <- IH1, E. f_equal. f_equal. clear - Q. induction Q as [|r q t u (A & B & C) Q IH]; [reflexivity|]. rewrite IH. f_equal. destruct r, q. cbn in *. congruence.
    + constructor; [exists d; auto|exact IH2].
Qed.
