From Coq Require Import Ascii String DecimalString Decimal DecimalNat Permutation Sorted Lia Bool.
From Verif Require Import Base DataportModel DataportSpec DataportProofs DataportProofs2 DataportProofs3 SelectModel SelectSpec.
Import List. Open Scope list_scope. Open Scope Z_scope.

Lemma among_in s l : among s l = true <-> In s l.
Proof.
  unfold among. rewrite existsb_exists. split.
  - intros (x & H & E). apply String.eqb_eq in E. now subst.
  - intros H. exists s. split; [exact H|apply String.eqb_refl].
Qed.
Lemma chosen_iff l : chosen l = true <-> eligible l.
Proof.
  unfold chosen, eligible. rewrite andb_true_iff. destruct (l_avail l) as [a|], (l_grid l) as [g|]; split; intros [H1 H2]; try discriminate.
  - apply among_in in H1. apply String.eqb_eq in H2. subst g. split; [|reflexivity].
    destruct H1 as [<-|[<-|[<-|[<-|[]]]]]; auto.
  - injection H2 as ->. split; [|reflexivity]. apply among_in. cbn.
    destruct H1 as [H|[H|[H|H]]]; injection H as ->; auto.
  - exfalso. destruct H1 as [H|[H|[H|H]]]; discriminate.
Qed.
Lemma in_chosen rest l : In l (filter chosen rest) <-> In l rest /\ eligible l.
Proof. rewrite filter_In, chosen_iff. tauto. Qed.

Lemma distinct_tail x rest : distinct (x :: rest) -> distinct rest.
Proof. intros H i j l l' Hi Hj A B E. pose proof (H (S i) (S j) l l' Hi Hj A B E). lia. Qed.
Lemma distinct_nodup rest : distinct rest -> NoDup (map l_id (filter chosen rest)).
Proof.
  induction rest as [|x rest IH]; intros H; [constructor|]. pose proof (IH (distinct_tail _ _ H)) as N. cbn. destruct (chosen x) eqn:C; [|exact N].
  cbn. apply NoDup_cons_iff. split; [|exact N]. intros K. apply in_map_iff in K. destruct K as (l & E & K). apply in_chosen in K. destruct K as [K A].
  apply In_nth_error in K. destruct K as (j & K). pose proof (H 0%nat (S j) x l eq_refl K (proj1 (chosen_iff x) C) A (eq_sym E)). lia.
Qed.

Lemma load_ok srt h first rest : complete h -> load srt (mkSheet h (first :: rest)) = Ok (srt (filter chosen rest)).
Proof.
  intros H. unfold load. cbn [s_lines s_header tl].
  assert (A : forall c, In c ["egauge_1s_data_availability"; "grid"; "dataid"; "building_type"; "city"; "state"; "house_construction_year"]%string -> among c h = true) by (intros c Hc; apply among_in, H, Hc).
  rewrite !A by (cbn; tauto). cbn [negb]. unfold METADATA_COLS. cbn [forallb]. rewrite !A by (cbn; tauto). reflexivity.
Qed.

Lemma dataids_ok rows ids : map l_id rows = map Some ids -> dataids rows = Ok ids.
Proof.
  unfold dataids. revert ids. induction rows as [|l rows IH]; intros [|b ids] H; try discriminate; [reflexivity|]. cbn in *. injection H as H1 H2. rewrite H1. cbn.
  now rewrite (IH ids H2).
Qed.
Lemma dataids_err rows : (exists l, In l rows /\ l_id l = None) -> dataids rows = Err ValueError.
Proof.
  unfold dataids. induction rows as [|l rows IH]; intros (x & Hx & E); [destruct Hx|]. cbn. destruct (l_id l) as [b|] eqn:El; [|reflexivity].
  destruct Hx as [<-|Hx]; [congruence|]. cbn. rewrite IH by eauto. reflexivity.
Qed.
Lemma ids_exist rows : (forall l, In l rows -> exists b, l_id l = Some b) -> exists ids, map l_id rows = map Some ids.
Proof.
  induction rows as [|l rows IH]; intros H; [exists []; reflexivity|]. destruct (H l (or_introl eq_refl)) as (b & E). destruct IH as (ids & K); [intros; apply H; now right|].
  exists (b :: ids). cbn. now rewrite E, K.
Qed.
Lemma in_ids rows ids b : map l_id rows = map Some ids -> In b ids <-> exists l, In l rows /\ l_id l = Some b.
Proof.
  intros H. split.
  - intros K. apply (in_map Some) in K. rewrite <- H in K. apply in_map_iff in K. destruct K as (l & E & K). eauto.
  - intros (l & K & E). apply (in_map l_id) in K. rewrite H, E in K. apply in_map_iff in K. destruct K as (x & Ex & K). now injection Ex as ->.
Qed.
Lemma ids_sorted rows : forall ids, map l_id rows = map Some ids -> NoDup (map l_id rows) -> StronglySorted id_le rows -> StronglySorted Z.lt ids.
Proof.
  induction rows as [|l rows IH]; intros [|b ids] H N S; try discriminate; [constructor|]. cbn in H. injection H as H1 H2. cbn in N. apply NoDup_cons_iff in N. destruct N as [N1 N2].
  apply StronglySorted_inv in S. destruct S as [S1 S2]. constructor; [now apply IH|]. apply Forall_forall. intros x Hx. apply (in_ids rows ids x H2) in Hx. destruct Hx as (l' & Hl & E).
  rewrite Forall_forall in S2. specialize (S2 l' Hl). unfold id_le in S2. rewrite H1, E in S2. assert (b <> x); [|lia]. intros ->. apply N1. rewrite H1, <- E. now apply in_map.
Qed.
Lemma sorted_nodup ids : StronglySorted Z.lt ids -> NoDup ids.
Proof.
  induction 1 as [|b ids S IH F]; constructor; [|exact IH]. intros K. rewrite Forall_forall in F. specialize (F b K). lia.
Qed.

Definition isid (b : Z) (l : line) : bool := match l_id l with Some i => i =? b | None => false end.
Lemma filter_none b rows : ~ In (Some b) (map l_id rows) -> filter (isid b) rows = [].
Proof.
  induction rows as [|l rows IH]; cbn; intros H; [reflexivity|]. rewrite IH by tauto. unfold isid. destruct (l_id l) as [i|]; [|reflexivity].
  destruct (Z.eqb_spec i b) as [->|]; [elim H; now left|reflexivity].
Qed.
Lemma filter_one rows l b : NoDup (map l_id rows) -> In l rows -> l_id l = Some b -> filter (isid b) rows = [l].
Proof.
  induction rows as [|x rows IH]; intros N H E; [destruct H|]. cbn in N. apply NoDup_cons_iff in N. destruct N as [N1 N2]. destruct H as [->|H].
  - cbn [filter]. rewrite filter_none by (now rewrite <- E). unfold isid. now rewrite E, Z.eqb_refl.
  - cbn [filter]. rewrite (IH N2 H E). unfold isid. destruct (l_id x) as [i|] eqn:Ex; [|reflexivity]. destruct (Z.eqb_spec i b) as [->|]; [|reflexivity].
    elim N1. rewrite <- E. now apply in_map.
Qed.
Lemma locality_of rows l b : NoDup (map l_id rows) -> In l rows -> l_id l = Some b -> locality rows b = join [l_city l; l_state l].
Proof. intros N H E. unfold locality. fold (isid b). change (fun l0 : line => match l_id l0 with Some i => i =? b | None => false end) with (isid b). now rewrite (filter_one rows l b N H E). Qed.
Lemma join_two l p : join [l_city l; l_state l] = Ok p <-> place l p.
Proof.
  unfold join, place. destruct (l_city l) as [c|], (l_state l) as [s|]; cbn; split; try discriminate.
  - intros H. injection H as <-. exists c, s. auto.
  - intros (c' & s' & H1 & H2 & ->). now injection H1 as ->; injection H2 as ->.
  - intros (c' & s' & H1 & H2 & _). discriminate.
  - intros (c' & s' & H1 & H2 & _). discriminate.
  - intros (c' & s' & H1 & H2 & _). discriminate.
Qed.
Lemma join_err l e : join [l_city l; l_state l] = Err e <-> no_place l /\ e = TypeError.
Proof.
  unfold join, no_place. destruct (l_city l) as [c|], (l_state l) as [s|]; cbn; split; intros H; try discriminate; try (injection H as <-); auto.
  - destruct H as [[H|H] _]; discriminate.
  - destruct H as [_ ->]. reflexivity.
  - destruct H as [_ ->]. reflexivity.
  - destruct H as [_ ->]. reflexivity.
Qed.

(** ** The loop over the buildings *)
Section Loop.
Variables (typ : nat -> nat) (fs : nat -> file) (ns : list nat) (rows : list line).
Definition fine (b : Z) : Prop := (exists p, locality rows b = Ok p) /\ bad fs ns b = false.
Lemma listed_ok ids : forall s done, CInv typ fs ns s done -> NoDup (done ++ ids) ->
  (exists s', foldM (one_listed typ fs ns rows) ids s = Ok s' /\ foldM (one_building typ fs ns) ids s = Ok s' /\ CInv typ fs ns s' (done ++ ids) /\ Forall fine ids) \/
  (exists pre b post e, ids = pre ++ b :: post /\ Forall fine pre /\ foldM (one_listed typ fs ns rows) ids s = Err e /\
     (locality rows b = Err e \/ (exists p, locality rows b = Ok p) /\ bad fs ns b = true /\ e = KeyError)).
Proof.
  induction ids as [|b ids IH]; intros s done H ND.
  - left. exists s. cbn. rewrite app_nil_r. auto.
  - assert (Hb : ~ In b done) by (apply NoDup_remove_2 in ND; intros K; apply ND; apply in_or_app; now left).
    pose proof (one_building_ok typ fs ns s done b H Hb) as K. cbn [foldM]. unfold one_listed at 1 3. destruct (locality rows b) as [p|e] eqn:L.
    + cbn [bind]. destruct (bad fs ns b) eqn:B.
      * right. exists [], b, ids, KeyError. rewrite K. split; [reflexivity|]. split; [constructor|]. split; [reflexivity|]. right. eauto.
      * destruct K as (s' & E & K). rewrite E. cbn [bind]. specialize (IH s' (done ++ [b]) K). rewrite <- app_assoc in IH. specialize (IH ND).
        assert (F : fine b) by (split; [eauto|exact B]).
        destruct IH as [(s2 & E1 & E2 & C & Fa)|(pre & b2 & post & e & -> & Fa & E1 & C)].
        -- left. exists s2. split; [exact E1|]. split; [exact E2|]. split; [exact C|]. now constructor.
        -- right. exists (b :: pre), b2, post, e. split; [reflexivity|]. split; [now constructor|]. split; [exact E1|exact C].
    + right. exists [], b, ids, e. cbn [bind]. split; [reflexivity|]. split; [constructor|]. split; [reflexivity|]. now left.
Qed.
End Loop.

(** ** The files *)
Lemma name_inj i j : file_name i = file_name j -> i = j.
Proof.
  unfold file_name. intros H. cbn in H. repeat (injection H as H).
  assert (K : forall u v : uint, (NilEmpty.string_of_uint u ++ ".yaml")%string = (NilEmpty.string_of_uint v ++ ".yaml")%string -> u = v).
  { clear. induction u; destruct v; cbn; intros E; try discriminate; try reflexivity; injection E as E; f_equal; auto. }
  apply K in H. apply Unsigned.to_uint_inj in H. exact H.
Qed.
Lemma name_prefix i : String.prefix "building" (file_name i) = true.
Proof. unfold file_name. cbn. destruct (NilEmpty.string_of_uint (Nat.to_uint i) ++ ".yaml")%string; reflexivity. Qed.
Lemma string_refl_eq : forall a b : string, String.eqb a b = true <-> a = b.
Proof. apply String.eqb_eq. Qed.

Definition yaml (rows : list line) (k : nat) (x : Z * meta) (y : string * content) : Prop :=
  exists p, locality rows (fst x) = Ok p /\ y = (file_name k, Building (fst x) (snd x) p).
Lemma yamls_ok rows metas : forall d k, (forall j b md, nth_error metas j = Some (b, md) -> m_instance md = Some (S (k + j))) ->
  (forall b md, In (b, md) metas -> exists p, locality rows b = Ok p) ->
  (forall j, (k < j)%nat -> ~ In (file_name j) (map fst d)) ->
  exists l, foldM (write_yaml rows) metas d = Ok (d ++ l) /\ length l = length metas /\
    forall j x, nth_error metas j = Some x -> exists y, nth_error l j = Some y /\ yaml rows (S (k + j)) x y.
Proof.
  induction metas as [|[b md] metas IH]; intros d k HI HL HD.
  - exists []. cbn. rewrite app_nil_r. split; [reflexivity|]. split; [reflexivity|]. intros j x H. destruct j; discriminate.
  - destruct (HL b md (or_introl eq_refl)) as (p & L). pose proof (HI 0%nat b md eq_refl) as I. rewrite Nat.add_0_r in I.
    cbn [foldM]. unfold write_yaml at 1. cbn [fst snd]. rewrite I, L. cbn [bind]. fold (file_name (S k)). change (yaml_name (S k)) with (file_name (S k)).
    rewrite dset_new; [|apply string_refl_eq|apply HD; lia].
    destruct (IH (d ++ [(file_name (S k), Building b md p)]) (S k)) as (l & E & Len & HN).
    + intros j b1 md1 H. rewrite (HI (S j) b1 md1 H). f_equal. lia.
    + intros b1 md1 H. apply (HL b1 md1). now right.
    + intros j Hj K. rewrite map_app in K. apply in_app_or in K. destruct K as [K|[K|[]]]; [apply (HD j); [lia|exact K]|]. cbn [fst] in K. apply name_inj in K. lia.
    + exists ((file_name (S k), Building b md p) :: l). rewrite E, <- app_assoc. split; [reflexivity|]. split; [cbn; now rewrite Len|].
      intros [|j] x H.
      * injection H as <-. exists (file_name (S k), Building b md p). split; [reflexivity|]. exists p. cbn [fst snd]. rewrite Nat.add_0_r. auto.
      * cbn in H. destruct (HN j x H) as (y & Y1 & Y2). exists y. split; [exact Y1|]. replace (k + S j)%nat with (S k + j)%nat by lia. exact Y2.
Qed.
