From Coq Require Import String Ascii QArith Qabs Sorted Permutation Lia.
From Verif Require Import Base IdealModel IdealSpec IdealProofs.
Import List. Open Scope list_scope. Open Scope nat_scope.

Lemma electric_iff c : electric c = true <-> c = "electric-mains"%string \/ c = "electric-appliance"%string.
Proof. unfold electric. now rewrite orb_true_iff, !String.eqb_eq. Qed.
Lemma existsb_in h l : existsb (Z.eqb h) l = true <-> In h l.
Proof. rewrite existsb_exists. split; [intros [x [Hx E]]; apply Z.eqb_eq in E; now subst|]. intros H. exists h. split; [exact H|apply Z.eqb_refl]. Qed.

Section Ideal.
  Context {V : Type}.
  Variable sorter : rows V -> rows V.
  Variable other_int : string -> option Z.
  Implicit Types d l : listing V.

  Lemma home_files_in l name : In name (home_files l) <-> (exists t, In (name, t) l) /\ exists mid, name = ("home" ++ mid ++ ".csv.gz")%string.
  Proof.
    unfold home_files. rewrite filter_In, globbed_iff, in_map_iff. split.
    - intros [[[n t] [E H]] K]. cbn [fst] in E. subst n. split; [now exists t|exact K].
    - intros [[t H] K]. split; [now exists (name, t)|exact K].
  Qed.

  (** The meter of an electric file. *)
  Definition meter_of (sensor category : string) (m : Z) : Prop :=
    category = "electric-mains"%string /\ first_number sensor m \/ category = "electric-appliance"%string /\ numeral sensor m.

  Definition home_step name : res (list Z) :=
    do p <- parts name;
    let '(home, _, _, category) := p in
    if electric category then (do h <- int_digits home; Ok [h]) else Ok [].

  Lemma home_step_ok name h s c : file_name name h s c -> home_step name = Ok (if electric c then [h] else []).
  Proof.
    intros H. destruct (parts_ok _ _ _ _ H) as [hm [r [E [N _]]]]. unfold home_step. rewrite E. cbn [bind].
    destruct (electric c); [|reflexivity]. now rewrite (numeral_digits "home" hm h eq_refl N).
  Qed.
  Lemma home_step_err name e : home_step name = Err e -> e = ValueError.
  Proof.
    unfold home_step. destruct (parts name) as [[[[a b] c] x]|e'] eqn:E; cbn [bind].
    - destruct (electric x); [|discriminate]. unfold int_digits. destruct (digits a); cbn [bind]; congruence.
    - intros [= <-]. now apply parts_err in E.
  Qed.
  Lemma find_one_ok valid name h s c : file_name name h s c ->
    find_one valid name = Ok (if electric c && existsb (Z.eqb h) valid then [mkFound name h s c] else []).
  Proof.
    intros H. destruct (parts_ok _ _ _ _ H) as [hm [r [E [N R]]]]. unfold find_one. rewrite E. cbn [bind].
    destruct (electric c); [|reflexivity]. rewrite (numeral_digits "home" hm h eq_refl N). cbn [bind andb].
    destruct (existsb (Z.eqb h) valid); [|reflexivity]. destruct (room_ok _ R) as [n ->]. cbn [bind].
    rewrite (substring_first "sensor" s : substring 0 6 ("sensor" ++ s) = "sensor"%string).
    replace (substring 6 (String.length ("sensor" ++ s) - 6) ("sensor" ++ s)) with s; [reflexivity|].
    symmetry. rewrite length_app. cbn [String.length]. replace (6 + String.length s - 6) with (String.length s) by lia.
    exact (substring_skip "sensor" s).
  Qed.

  Lemma tidy_case l name : tidy l -> In name (home_files l) ->
    exists h s c, file_name name h s c /\
      (electric c = false \/
       electric c = true /\ (1 <= h)%Z /\ exists raw m, In (name, File (Ok raw)) l /\ (1 <= m)%Z /\ meter_of s c m).
  Proof.
    intros [N T] H. apply home_files_in in H. destruct H as [[t Ht] K].
    destruct (T name t Ht K) as [h [s [c [F [[A B]|[Hh [[raw ->] [m [Hm M]]]]]]]]]; exists h, s, c; (split; [exact F|]).
    - left. destruct (electric c) eqn:E; [|reflexivity]. apply electric_iff in E. tauto.
    - right. split; [apply electric_iff; unfold meter_of in M; tauto|]. split; [exact Hh|]. exists raw, m. split; [exact Ht|]. split; [exact Hm|exact M].
  Qed.

  Lemma home_ids_ok l : tidy l -> exists ids, home_ids l = Ok ids /\ forall h, In h ids <-> has_power l h.
  Proof.
    intros T. assert (exists ys, mapM home_step (home_files l) = Ok ys) as [ys E].
    { apply mapM_all. intros name H. destruct (tidy_case l name T H) as [h [s [c [F _]]]]. rewrite (home_step_ok _ _ _ _ F). eauto. }
    exists (concat ys). split; [unfold home_ids; unfold home_step in E; rewrite E; reflexivity|].
    intros h. apply mapM_F2 in E. rewrite (concat_F2 home_step _ _ h E). split.
    - intros [name [zs [Hn [Hz Hh]]]]. destruct (tidy_case l name T Hn) as [h' [s [c [F [Ec|[Ec [_ [raw [m [Hin [_ M]]]]]]]]]]].
      + rewrite (home_step_ok _ _ _ _ F), Ec in Hz. injection Hz as <-. destruct Hh.
      + rewrite (home_step_ok _ _ _ _ F), Ec in Hz. injection Hz as <-. destruct Hh as [<-|[]].
        destruct M as [[-> M]|[-> M]]; [exists m, Apparent, raw|exists m, Active, raw]; exists name, s; eexists; (split; [exact Hin|]); (split; [exact F|]); [left|right]; auto.
    - intros [m [ac [raw [name [s [c [Hin [F M]]]]]]]]. exists name, [h]. split; [|split].
      + apply home_files_in. split; [eauto|]. apply globbed_iff. exact (name_globbed _ _ _ _ F).
      + rewrite (home_step_ok _ _ _ _ F). assert (electric c = true) as -> by (apply electric_iff; tauto). reflexivity.
      + now left.
  Qed.

  (** What one folder contributes. *)
  Definition gives l (valid : list Z) (k : Z * Z) (t : actype * rows V) : Prop :=
    exists h m ac raw, power_file l h m ac raw /\ In h valid /\ raw <> [] /\ k = (h, m) /\ t = (ac, sorter (cut raw)).

  Lemma file_ok l name h s c raw m : NoDup (map fst l) -> In (name, File (Ok raw)) l -> (1 <= h)%Z -> (1 <= m)%Z -> meter_of s c m ->
    ideal_file sorter other_int l (mkFound name h s c) = Ok ((h, m), (ideal_type c, sorter (cut raw))).
  Proof.
    intros N Hin Hh Hm M. unfold ideal_file. cbn [f_category f_sensor f_home f_name].
    assert (py_int other_int (if String.eqb c "electric-appliance" then s else hd EmptyString (split_on "c" s)) = Ok m) as ->.
    { destruct M as [[-> M]|[-> M]].
      - apply sensor_first in M. destruct M as [p [P E]]. change (String.eqb "electric-mains" "electric-appliance") with false. cbv iota. rewrite E. now apply numeral_int.
      - rewrite String.eqb_refl. now apply numeral_int. }
    cbn [bind]. unfold check_key. destruct (Z.leb_spec 1 h); [|lia]. destruct (Z.leb_spec 1 m); [|lia]. cbn [andb bind].
    unfold ideal_load, read_csv. rewrite (proj2 (entry_in name l (File (Ok raw)) N) Hin). reflexivity.
  Qed.

  Lemma folder_exact l valid s (P : Z * Z -> actype * rows V -> Prop) :
    tidy l -> exact_for s P -> (forall r : rows V, sorter r = [] -> r = []) -> (forall r : rows V, r = [] -> sorter r = []) ->
    (forall k t t', P k t \/ gives l valid k t -> P k t' \/ gives l valid k t' -> t = t') ->
    (forall h m ac ac' raw raw', power_file l h m ac raw -> power_file l h m ac' raw' -> ac = ac' /\ raw = raw') ->
    (forall h m ac raw t, power_file l h m ac raw -> P (h, m) t -> t = (ac, sorter (cut raw))) ->
    exists fs, find_all l valid = Ok fs /\
      snd (write_all (ideal_file sorter other_int l) fs s) = None /\
      exact_for (fst (write_all (ideal_file sorter other_int l) fs s)) (fun k t => P k t \/ gives l valid k t).
  Proof.
    intros T HP Hs Hs' Hf Hu Hc.
    assert (exists ys, mapM (find_one valid) (home_files l) = Ok ys) as [ys E].
    { apply mapM_all. intros name H. destruct (tidy_case l name T H) as [h [c0 [c [F _]]]]. rewrite (find_one_ok _ _ _ _ _ F). eauto. }
    exists (concat ys). split; [unfold find_all; rewrite E; reflexivity|].
    apply mapM_F2 in E.
    assert (C : forall f, In f (concat ys) -> exists name h sn c raw m, f = mkFound name h sn c /\ In h valid /\ (1 <= h)%Z /\ (1 <= m)%Z /\ file_name name h sn c /\ In (name, File (Ok raw)) l /\ meter_of sn c m).
    { intros f Hfx. apply (concat_F2 (find_one valid) _ _ f E) in Hfx. destruct Hfx as [name [zs [Hn [Hz Hh]]]].
      destruct (tidy_case l name T Hn) as [h [sn [c [F [Ec|[Ec [Hh1 [raw [m [Hin [Hm M]]]]]]]]]]].
      - rewrite (find_one_ok _ _ _ _ _ F), Ec in Hz. injection Hz as <-. destruct Hh.
      - rewrite (find_one_ok _ _ _ _ _ F), Ec in Hz. cbn [andb] in Hz. destruct (existsb (Z.eqb h) valid) eqn:Ev; injection Hz as <-; [|destruct Hh].
        destruct Hh as [<-|[]]. apply existsb_in in Ev. exists name, h, sn, c, raw, m. repeat split; assumption. }
    destruct T as [ND T'].
    assert (R : forall f k t, In f (concat ys) -> ideal_file sorter other_int l f = Ok (k, t) ->
      exists h m ac raw, power_file l h m ac raw /\ In h valid /\ k = (h, m) /\ t = (ac, sorter (cut raw))).
    { intros f k t Hfx Ef. destruct (C f Hfx) as [name [h [sn [c [raw [m [-> [Hv [Hh [Hm [F [Hin M]]]]]]]]]]]].
      rewrite (file_ok l name h sn c raw m ND Hin Hh Hm M) in Ef. injection Ef as <- <-.
      exists h, m, (ideal_type c), raw. split; [|now repeat split]. exists name, sn, c. split; [exact Hin|]. split; [exact F|].
      destruct M as [[-> M]|[-> M]]; [left|right]; repeat split; exact M. }
    destruct (write_all_exact (ideal_file sorter other_int l) (concat ys) s P HP) as [W1 W2].
    - intros f Hfx. destruct (C f Hfx) as [name [h [sn [c [raw [m [-> [Hv [Hh [Hm [F [Hin M]]]]]]]]]]]].
      rewrite (file_ok l name h sn c raw m ND Hin Hh Hm M). eauto.
    - intros k t t' [H|[x [Hx Ex]]] [H'|[y [Hy Ey]]].
      + apply (Hf k); now left.
      + destruct (R y k t' Hy Ey) as [h [m [ac [raw [F [Hv [-> ->]]]]]]]. exact (Hc h m ac raw t F H).
      + destruct (R x k t Hx Ex) as [h [m [ac [raw [F [Hv [-> ->]]]]]]]. symmetry. exact (Hc h m ac raw t' F H').
      + destruct (R x k t Hx Ex) as [h [m [ac [raw [F [Hv [-> ->]]]]]]]. destruct (R y _ t' Hy Ey) as [h' [m' [ac' [raw' [F' [Hv' [Ek ->]]]]]]].
        injection Ek as <- <-. destruct (Hu _ _ _ _ _ _ F F') as [-> ->]. reflexivity.
    - split; [exact W1|]. intros k t. rewrite (W2 k t). split.
      + intros [H|[x [Hx [Ex Hne]]]]; [now left|]. right. destruct (R x k t Hx Ex) as [h [m [ac [raw [F [Hv [-> ->]]]]]]].
        exists h, m, ac, raw. split; [exact F|]. split; [exact Hv|]. split; [|now split]. intros ->. apply Hne. cbn [snd]. now apply Hs'.
      + intros [H|[h [m [ac [raw [F [Hv [Hne [-> ->]]]]]]]]]; [now left|]. right.
        destruct F as [name [sn [c [Hin [F M]]]]].
        assert (M' : meter_of sn c m) by (unfold meter_of; tauto).
        assert (Ec : electric c = true) by (apply electric_iff; tauto).
        assert (Hn : In name (home_files l)).
        { apply home_files_in. split; [eauto|]. apply globbed_iff. exact (name_globbed _ _ _ _ F). }
        assert (Hfx : In (mkFound name h sn c) (concat ys)).
        { apply (concat_F2 (find_one valid) _ _ _ E). exists name, [mkFound name h sn c]. split; [exact Hn|]. split; [|now left].
          rewrite (find_one_ok _ _ _ _ _ F), Ec. apply existsb_in in Hv. now rewrite Hv. }
        exists (mkFound name h sn c). split; [exact Hfx|].
        destruct (C _ Hfx) as [name' [h' [sn' [c' [raw' [m' [Ef [_ [Hh [Hm [_ [Hin' M'']]]]]]]]]]]].
        injection Ef as <- <- <- <-. pose proof (nodup_fst _ _ _ _ ND Hin Hin') as Er. injection Er as <-.
        assert (m = m') as <-.
        { destruct M' as [[Ea A]|[Ea A]], M'' as [[Eb B]|[Eb B]]; try congruence; [exact (first_number_fun _ _ _ A B)|exact (numeral_fun _ _ _ A B)]. }
        rewrite (file_ok l name h sn c raw m ND Hin Hh Hm M'). split.
        * repeat f_equal. destruct M as [[-> [-> _]]|[-> [-> _]]]; reflexivity.
        * cbn [snd]. intros Z. apply Hs in Z. unfold cut in Z. apply map_eq_nil in Z. contradiction.
  Qed.

  (** Folders. *)
  Lemma tree_ind' (P : tree V -> Prop) : (forall c, P (File c)) -> (forall l, Forall (fun e => P (snd e)) l -> P (Dir l)) -> forall t, P t.
  Proof.
    intros Hf Hd. fix IH 1. intros [c|l]; [apply Hf|]. apply Hd. induction l as [|[n t] l IHl]; constructor; [exact (IH t)|exact IHl].
  Qed.
  Lemma walk_below t : forall n l, t = Dir l -> In n (walk_tree t) -> below l n.
  Proof.
    induction t as [c|l0 IH] using tree_ind'; intros n l E; [discriminate|]. injection E as <-. cbn [walk_tree]. rewrite in_app_iff.
    intros [H|H].
    - apply in_map_iff in H. destruct H as [[n' t] [E H]]. cbn [fst] in E. subst n'. apply filter_In in H. destruct H as [H K].
      destruct t as [c|l']; [discriminate|]. exact (below_here n l' l0 H).
    - apply in_flat_map in H. destruct H as [[m t] [Hm H]]. cbn [snd] in H. rewrite Forall_forall in IH.
      destruct t as [c|l']; [destruct H|]. exact (below_deeper m l' l0 n Hm (IH _ Hm n l' eq_refl H)).
  Qed.

  Lemma folders_top d : not_nested d -> filter wanted (walk d) = filter wanted (map fst (filter is_dir d)).
  Proof.
    intros H. unfold walk. cbn [walk_tree]. rewrite filter_app.
    assert (filter wanted (flat_map (fun e => walk_tree (snd e)) d) = []) as ->; [|apply app_nil_r].
    destruct (filter wanted (flat_map _ d)) as [|x r] eqn:E; [reflexivity|].
    assert (K : In x (filter wanted (flat_map (fun e => walk_tree (snd e)) d))) by (rewrite E; now left).
    apply filter_In in K. destruct K as [K W]. apply in_flat_map in K. destruct K as [[n t] [Hn K]]. cbn [snd] in K.
    destruct t as [c|l]; [destruct K|]. apply (walk_below _ x l eq_refl) in K. destruct (H n l Hn) as [A B].
    unfold wanted in W. apply orb_true_iff in W. rewrite !String.eqb_eq in W. destruct W as [->| ->]; contradiction.
  Qed.
  Lemma dirs_in d n : In n (map fst (filter is_dir d)) <-> exists l, In (n, Dir l) d.
  Proof.
    rewrite in_map_iff. split.
    - intros [[n' t] [E H]]. cbn [fst] in E. subst n'. apply filter_In in H. destruct H as [H K]. destruct t as [c|l]; [discriminate|now exists l].
    - intros [l H]. exists (n, Dir l). split; [reflexivity|]. apply filter_In. now split.
  Qed.
  Lemma nodup_dirs d : NoDup (map fst d) -> NoDup (map fst (filter is_dir d)).
  Proof.
    induction d as [|[n t] d IH]; cbn [map fst filter]; [intros _; constructor|]. intros N. inversion N as [|? ? Na N']; subst.
    destruct (is_dir (n, t)); [|now apply IH]. cbn [map fst]. constructor; [|now apply IH].
    intros H. apply Na. apply in_map_iff in H. destruct H as [e [<- H]]. apply filter_In in H. now apply in_map.
  Qed.

  Lemma two_of (a b : string) (l : list string) : NoDup l -> a <> b -> (forall x, In x l <-> x = a \/ x = b) -> l = [a; b] \/ l = [b; a].
  Proof.
    intros N Hab H. destruct l as [|x [|y [|z r]]].
    - destruct (proj2 (H a) (or_introl eq_refl)).
    - destruct (proj2 (H a) (or_introl eq_refl)) as [->|[]]. destruct (proj2 (H b) (or_intror eq_refl)) as [E|[]]. congruence.
    - destruct (proj1 (H x) (or_introl eq_refl)) as [->| ->], (proj1 (H y) (or_intror (or_introl eq_refl))) as [->| ->]; auto;
        exfalso; inversion N as [|? ? Na _]; apply Na; now left.
    - exfalso. inversion N as [|? ? Na N']. inversion N' as [|? ? Nb N'']. subst.
      destruct (proj1 (H x) (or_introl eq_refl)) as [->| ->], (proj1 (H y) (or_intror (or_introl eq_refl))) as [->| ->],
        (proj1 (H z) (or_intror (or_intror (or_introl eq_refl)))) as [->| ->];
        first [apply Na; cbn; tauto|apply Nb; cbn; tauto].
  Qed.
  Lemma layout_folders d house rooms : layout d house rooms ->
    filter wanted (walk d) = ["household_sensordata"; "rooms_appliance_sensordata"]%string \/
    filter wanted (walk d) = ["rooms_appliance_sensordata"; "household_sensordata"]%string.
  Proof.
    intros [N [NN [H1 H2]]]. rewrite folders_top by exact NN. apply two_of; [now apply NoDup_filter, nodup_dirs|discriminate|].
    intros x. rewrite filter_In, dirs_in. unfold wanted. rewrite orb_true_iff, !String.eqb_eq. split; [tauto|].
    intros [->| ->]; (split; [eauto|auto]).
  Qed.
  Lemma layout_folder d house rooms : layout d house rooms ->
    folder_of d "household_sensordata" = Some house /\ folder_of d "rooms_appliance_sensordata" = Some rooms.
  Proof. intros [N [_ [H1 H2]]]. unfold folder_of. apply (entry_in _ _ _ N) in H1, H2. now rewrite H1, H2. Qed.

  Definition in_both (house rooms : listing V) (h : Z) : Prop := has_power house h /\ has_power rooms h.

  (** Two folders one after the other. *)
  Lemma both_ok d f0 f1 l0 l1 : folder_of d f0 = Some l0 -> folder_of d f1 = Some l1 -> tidy l0 -> tidy l1 -> single l0 l1 ->
    (forall r, Permutation (sorter r) r) ->
    exists valid s, both_homes d [f0; f1] = Ok valid /\ ideal_folders sorter other_int d valid [f0; f1] [] = (s, None) /\
      (forall h, In h valid <-> in_both l0 l1 h) /\
      exact_for s (fun k t => gives l0 valid k t \/ gives l1 valid k t).
  Proof.
    intros F0 F1 T0 T1 SG HS. destruct (home_ids_ok l0 T0) as [i0 [E0 I0]]. destruct (home_ids_ok l1 T1) as [i1 [E1 I1]].
    set (valid := filter (fun h => existsb (Z.eqb h) i1) i0).
    assert (Hv : forall h, In h valid <-> in_both l0 l1 h).
    { intros h. unfold valid, in_both. rewrite filter_In, existsb_in, I0, I1. reflexivity. }
    assert (S1 : forall r : rows V, sorter r = [] -> r = []).
    { intros r E. specialize (HS r). rewrite E in HS. now apply Permutation_nil in HS. }
    assert (S2 : forall r : rows V, r = [] -> sorter r = []).
    { intros r ->. specialize (HS []). symmetry in HS. now apply Permutation_nil in HS. }
    assert (EB : both_homes d [f0; f1] = Ok valid).
    { unfold both_homes, globs. rewrite F0, F1, E1. cbn [bind]. rewrite E0. reflexivity. }
    assert (U : forall h m ac raw ac' raw', power_file l0 h m ac raw \/ power_file l1 h m ac raw -> power_file l0 h m ac' raw' \/ power_file l1 h m ac' raw' -> ac = ac' /\ raw = raw') by exact SG.
    assert (G : forall k t t', gives l0 valid k t \/ gives l1 valid k t -> gives l0 valid k t' \/ gives l1 valid k t' -> t = t').
    { intros k t t' H H'.
      assert (Q : exists h m ac raw, (power_file l0 h m ac raw \/ power_file l1 h m ac raw) /\ k = (h, m) /\ t = (ac, sorter (cut raw))).
      { destruct H as [[h [m [ac [raw [F [_ [_ [-> ->]]]]]]]]|[h [m [ac [raw [F [_ [_ [-> ->]]]]]]]]]; exists h, m, ac, raw; auto. }
      assert (Q' : exists h m ac raw, (power_file l0 h m ac raw \/ power_file l1 h m ac raw) /\ k = (h, m) /\ t' = (ac, sorter (cut raw))).
      { destruct H' as [[h [m [ac [raw [F [_ [_ [-> ->]]]]]]]]|[h [m [ac [raw [F [_ [_ [-> ->]]]]]]]]]; exists h, m, ac, raw; auto. }
      destruct Q as [h [m [ac [raw [F [-> ->]]]]]], Q' as [h' [m' [ac' [raw' [F' [Ek ->]]]]]]. injection Ek as <- <-.
      destruct (U _ _ _ _ _ _ F F') as [-> ->]. reflexivity. }
    assert (X0 : exact_for (@nil ((Z * Z) * (actype * rows V))) (fun _ _ => False)).
    { intros k t. cbn [get]. split; [discriminate|intros []]. }
    destruct (folder_exact l0 valid [] (fun _ _ => False) T0 X0 S1 S2) as [fs [Ef [W1 W2]]].
    - intros k t t' [[]|H] [[]|H']. apply (G k); now left.
    - intros h m ac ac' raw raw' H H'. apply (U h m); now left.
    - intros h m ac raw t _ [].
    - set (s1 := fst (write_all (ideal_file sorter other_int l0) fs [])) in *.
      assert (X1 : exact_for s1 (gives l0 valid)).
      { intros k t. rewrite (W2 k t). split; [now intros [[]|H]|now right]. }
      destruct (folder_exact l1 valid s1 (gives l0 valid) T1 X1 S1 S2) as [fs' [Ef' [W1' W2']]].
      + intros k t t' H H'. now apply (G k).
      + intros h m ac ac' raw raw' H H'. apply (U h m); now right.
      + intros h m ac raw t H [h' [m' [ac' [raw' [F [_ [_ [Ek ->]]]]]]]]. injection Ek as <- <-.
        destruct (U h m ac' raw' ac raw) as [-> ->]; [now left|now right|reflexivity].
      + exists valid, (fst (write_all (ideal_file sorter other_int l1) fs' s1)). split; [exact EB|]. split; [|split; [exact Hv|exact W2']].
        cbn [ideal_folders]. unfold ideal_folder. rewrite F0, Ef, (surjective_pairing (write_all (ideal_file sorter other_int l0) fs [])), W1. fold s1.
        rewrite F1, Ef', (surjective_pairing (write_all (ideal_file sorter other_int l1) fs' s1)), W1'. reflexivity.
  Qed.

  Theorem ideal_ok d house rooms : layout d house rooms -> tidy house -> tidy rooms -> single house rooms -> sorts sorter ->
    exists s, convert_ideal sorter other_int d = (s, None) /\
      forall h m ac t, get s (h, m) = Some (ac, t) <->
        exists raw, (power_file house h m ac raw \/ power_file rooms h m ac raw) /\ has_power house h /\ has_power rooms h /\ raw <> [] /\ t = sorter (cut raw).
  Proof.
    intros L T0 T1 SG HS. destruct (layout_folder d house rooms L) as [F0 F1]. unfold convert_ideal.
    destruct (layout_folders d house rooms L) as [-> | ->].
    - destruct (both_ok d _ _ _ _ F0 F1 T0 T1 SG (fun r => proj1 (HS r))) as [valid [s [-> [-> [Hv X]]]]].
      exists s. split; [reflexivity|]. intros h m ac t. rewrite (X (h, m) (ac, t)). split.
      + intros [G|G]; destruct G as [h' [m' [ac' [raw [F [Hh [Hne [Ek Et]]]]]]]]; injection Ek as <- <-; injection Et as -> ->;
          exists raw; apply Hv in Hh; destruct Hh as [A B]; repeat split; auto.
      + intros [raw [F [A [B [Hne ->]]]]]. destruct F as [F|F]; [left|right]; exists h, m, ac, raw; (split; [exact F|]); (split; [apply Hv; now split|]); now repeat split.
    - assert (SG' : single rooms house).
      { intros h m ac raw ac' raw' A B. apply (SG h m); tauto. }
      destruct (both_ok d _ _ _ _ F1 F0 T1 T0 SG' (fun r => proj1 (HS r))) as [valid [s [-> [-> [Hv X]]]]].
      exists s. split; [reflexivity|]. intros h m ac t. rewrite (X (h, m) (ac, t)). split.
      + intros [G|G]; destruct G as [h' [m' [ac' [raw [F [Hh [Hne [Ek Et]]]]]]]]; injection Ek as <- <-; injection Et as -> ->;
          exists raw; apply Hv in Hh; destruct Hh as [A B]; repeat split; auto.
      + intros [raw [F [A [B [Hne ->]]]]]. destruct F as [F|F]; [right|left]; exists h, m, ac, raw; (split; [exact F|]); (split; [apply Hv; now split|]); now repeat split.
  Qed.

  (** Failures. *)
  Lemma home_ids_bad l name t : In (name, t) l -> (exists mid, name = ("home" ++ mid ++ ".csv.gz")%string) -> count "_" name <> 4 -> home_ids l = Err ValueError.
  Proof.
    intros H K C. unfold home_ids. rewrite (mapM_err _ ValueError); [reflexivity| |].
    - intros x e' _. exact (home_step_err x e').
    - exists name. split; [apply home_files_in; eauto|]. exists ValueError. now rewrite (parts_bad name C).
  Qed.
  Lemma home_ids_err l e : home_ids l = Err e -> e = ValueError.
  Proof.
    unfold home_ids. destruct (mapM _ (home_files l)) as [ys|e'] eqn:E; cbn [bind]; [discriminate|]. intros [= <-]. revert E.
    generalize (home_files l). intros L. induction L as [|x r IH]; cbn [mapM]; [discriminate|].
    destruct (home_step x) as [y|e0] eqn:Ex; unfold home_step in Ex; rewrite Ex; cbn [bind].
    - destruct (mapM _ r) as [zs|e1]; cbn [bind]; [discriminate|]. intros [= ->]. now apply IH.
    - intros [= <-]. exact (home_step_err x e0 Ex).
  Qed.
  Theorem ideal_bad_name d house rooms name t : layout d house rooms ->
    In (name, t) house \/ In (name, t) rooms -> (exists mid, name = ("home" ++ mid ++ ".csv.gz")%string) -> count "_" name <> 4 ->
    convert_ideal sorter other_int d = ([], Some ValueError).
  Proof.
    intros L H K C. destruct (layout_folder d house rooms L) as [F0 F1]. unfold convert_ideal.
    assert (X : forall a b : listing V, (home_ids a = Err ValueError \/ home_ids b = Err ValueError) ->
      (do i <- home_ids b; do j <- home_ids a; Ok (filter (fun h => existsb (Z.eqb h) i) j)) = Err ValueError).
    { intros a b Hab. destruct (home_ids b) as [i|e] eqn:Eb; cbn [bind].
      - destruct Hab as [->|E]; [reflexivity|discriminate].
      - now rewrite (home_ids_err b e Eb). }
    destruct (layout_folders d house rooms L) as [-> | ->]; unfold both_homes, globs; rewrite F0, F1, X; try reflexivity;
      destruct H as [H|H]; first [left; exact (home_ids_bad _ _ _ H K C)|right; exact (home_ids_bad _ _ _ H K C)].
  Qed.
  Theorem ideal_no_rooms d : NoDup (map fst d) -> not_nested d -> (forall l, ~ In ("rooms_appliance_sensordata"%string, Dir l) d) ->
    convert_ideal sorter other_int d = ([], Some IndexError).
  Proof.
    intros N NN H. unfold convert_ideal. rewrite folders_top by exact NN.
    set (L := filter wanted (map fst (filter is_dir d))).
    assert (A : forall x, In x L -> x = "household_sensordata"%string).
    { intros x Hx. unfold L in Hx. apply filter_In in Hx. destruct Hx as [Hx W]. apply dirs_in in Hx. destruct Hx as [l Hl].
      unfold wanted in W. apply orb_true_iff in W. rewrite !String.eqb_eq in W. destruct W as [->| ->]; [reflexivity|]. destruct (H l Hl). }
    assert (B : NoDup L) by (now apply NoDup_filter, nodup_dirs).
    destruct L as [|x [|y r]]; [reflexivity|reflexivity|].
    exfalso. inversion B as [|? ? Na _]; subst. apply Na. left.
    rewrite (A x), (A y); [reflexivity| |]; cbn; auto.
  Qed.
End Ideal.
