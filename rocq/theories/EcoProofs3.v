(** Proofs about importing the ECO data set: when the conversion succeeds and
    what is left out. *)
From Coq Require Import String Ascii Permutation Sorted.
From Verif Require Import Base EcoModel EcoSpec EcoProofs EcoProofs2.
Import List. Open Scope list_scope. Open Scope nat_scope.

Section Proofs.
  Context {V : Type}.
  Variable gone : V -> bool.
  Variable reactive : V -> V -> V.
  Variable nan : V.
  Variable day : string -> option Z.
  Variable py_int : string -> option Z.
  Notation rows := (list (Z * list V)).
  Notation day_rows := (day_rows gone nan day).

  (** ** Success *)
  Definition kind_of (k : Z * Z) : kind := if (snd k <=? 3)%Z then Sm else Plugs.
  Definition kinds (s : store V) : Prop := forall k c r, get s k = Some (c, r) -> c = kind_of k.

  Lemma write_ok k c new s : kinds s -> c = kind_of k -> exists s', write k c new s = (s', None) /\ kinds s'.
  Proof.
    intros I ->. unfold write. destruct new as [|x new]; [exists s; split; [reflexivity|exact I]|].
    assert (G : forall t, kinds (put s k (kind_of k, t))).
    { intros t k' c' r'. rewrite get_put. destruct (key_eqb k' k) eqn:E; [|apply I]. apply key_eqb_spec in E. subst k'. congruence. }
    destruct (get s k) as [[c' old]|] eqn:E; [|eexists; split; [reflexivity|apply G]].
    rewrite (I _ _ _ E). replace (kind_eqb (kind_of k) (kind_of k)) with true by (destruct (kind_of k); reflexivity). eexists; split; [reflexivity|apply G].
  Qed.

  (** A step that succeeds, sets the first flag if [q1] and the second if [q2]. *)
  Definition fine (st : state (V:=V)) (q1 q2 : Prop) (r : state (V:=V) * option exn) : Prop :=
    snd r = None /\ kinds (e_store (fst r)) /\ (e_sm st = true \/ q1 -> e_sm (fst r) = true) /\ (e_plug st = true \/ q2 -> e_plug (fst r) = true).
  Lemma loop_fine {X} (f : X -> state -> state * option exn) (q1 q2 : X -> Prop) l :
    (forall x st, In x l -> kinds (e_store st) -> fine st (q1 x) (q2 x) (f x st)) ->
    forall st, kinds (e_store st) -> fine st (exists x, In x l /\ q1 x) (exists x, In x l /\ q2 x) (loop f l st).
  Proof.
    induction l as [|x l IH]; intros H st I; cbn [loop].
    - split; [reflexivity|]. split; [exact I|]. split; intros [K|(x & [] & _)]; exact K.
    - destruct (H x st (or_introl eq_refl) I) as (N & I1 & A & B). destruct (f x st) as [st1 o]. cbn [fst snd] in *. subst o.
      destruct (IH (fun y s Hy => H y s (or_intror Hy)) st1 I1) as (N2 & I2 & A2 & B2). split; [exact N2|]. split; [exact I2|]. split.
      + intros [K|(y & [<-|K] & Q)]; apply A2; [left; apply A; left; exact K|left; apply A; right; exact Q|right; exists y; auto].
      + intros [K|(y & [<-|K] & Q)]; apply B2; [left; apply B; left; exact K|left; apply B; right; exact Q|right; exists y; auto].
  Qed.
  Lemma fine_weaken st (q1 q2 p1 p2 : Prop) r : (p1 -> q1) -> (p2 -> q2) -> fine st q1 q2 r -> fine st p1 p2 r.
  Proof. intros A B (N & I & F & G). split; [exact N|]. split; [exact I|]. split; [intros [K|K]; auto|intros [K|K]; auto]. Qed.

  Lemma day_rows_ok start l : day start <> None -> Z.of_nat (List.length l) = 86400%Z -> exists r, day_rows start l = Ok r.
  Proof. unfold EcoModel.day_rows. destruct (day start); [|congruence]. intros _ ->. rewrite Z.eqb_refl. eexists. reflexivity. Qed.

  Lemma phase_fine b fi l phase st : (1 <= b)%Z -> In phase [1; 2; 3] -> day (date fi) <> None -> Z.of_nat (List.length l) = 86400%Z -> kinds (e_store st) ->
    fine st False False (eco_phase gone reactive nan day b fi l phase st).
  Proof.
    intros B P D L I. unfold eco_phase, check_key.
    assert (Q : (1 <=? b)%Z && (1 <=? Z.of_nat phase)%Z = true) by (apply andb_true_intro; split; apply Z.leb_le; [exact B|destruct P as [<-|[<-|[<-|[]]]]; lia]).
    rewrite Q. cbn [bind]. destruct (day_rows_ok (but_last_four fi) (map (phase_row reactive nan phase) l) D) as [new ->]; [rewrite map_length; exact L|].
    destruct (write_ok (b, Z.of_nat phase) Sm new (e_store st) I) as (s' & W & I'); [unfold kind_of; cbn [snd]; destruct P as [<-|[<-|[<-|[]]]]; reflexivity|].
    rewrite W. unfold set_store, fine. cbn [fst snd e_store e_sm e_plug]. split; [reflexivity|]. split; [exact I'|]. split; intros [K|[]]; exact K.
  Qed.

  Lemma sm_file_fine b files fi l st : (1 <= b)%Z -> read_csv files fi = Ok l -> day (date fi) <> None -> Z.of_nat (List.length l) = 86400%Z -> kinds (e_store st) ->
    fine st True False (eco_sm_file gone reactive nan day b files fi st).
  Proof.
    intros B R D L I. unfold eco_sm_file. rewrite R.
    destruct (loop_fine (eco_phase gone reactive nan day b fi l) (fun _ => False) (fun _ => False) [1; 2; 3]
      (fun p s Hp K => phase_fine b fi l p s B Hp D L K) (mkState (e_store st) true (e_plug st)) I) as (N & I' & A & A2).
    split; [exact N|]. split; [exact I'|]. split; [intros _; apply A; left; reflexivity|]. intros [K|[]]. apply A2. left. exact K.
  Qed.
  Lemma plug_file_fine b m files fi l st : (3 < m)%Z -> read_csv files fi = Ok l -> day (with_colons (date fi)) <> None -> Z.of_nat (List.length l) = 86400%Z -> kinds (e_store st) ->
    fine st False True (eco_plug_file gone nan day b m files fi st).
  Proof.
    intros B R D L I. unfold eco_plug_file. rewrite R. cbn [bind].
    destruct (day_rows_ok (colons (but_last_four fi)) (map (fun r => [column nan 1 r]) l)) as [new ->]; [rewrite colons_with; exact D|rewrite map_length; exact L|].
    cbn [e_store]. destruct (write_ok (b, m) Plugs new (e_store st) I) as (s' & W & I').
    { unfold kind_of. cbn [snd]. replace (m <=? 3)%Z with false by (symmetry; apply Z.leb_gt; exact B). reflexivity. }
    rewrite W. unfold set_store, fine. cbn [fst snd e_store e_sm e_plug]. split; [reflexivity|]. split; [exact I'|]. split; [intros [K|[]]; exact K|reflexivity].
  Qed.

  Variable d : listing V.
  Hypothesis G : good day py_int d.
  Let W : well_named d := g_names _ _ _ G.
  Notation sm_folder := (sm_folder py_int d).
  Notation plug_folder := (plug_folder py_int d).

  Definition some_csv (l : listing V) fl : Prop := exists files, In (fl, Dir files) l /\ exists fi t, In (fi, t) files /\ has ".csv" fi.

  Lemma days_read start (files : listing V) fi : unique files -> good_days day start files -> In fi (csv_names files) ->
    exists l, read_csv files fi = Ok l /\ day (start (date fi)) <> None /\ Z.of_nat (List.length l) = 86400%Z.
  Proof.
    intros U GD K. apply csv_names_in in K. destruct K as [C [t K]]. destruct (GD fi t K C) as (lines & -> & L & D).
    exists lines. split; [apply (read_in _ _ _ U); exact K|]. auto.
  Qed.

  Lemma sm_sub_fine b f l fl st : sm_folder b f l -> (1 <= b)%Z -> In fl (dirs l) -> kinds (e_store st) ->
    fine st (some_csv l fl) False (eco_sub gone reactive nan day py_int b Sm l fl st).
  Proof.
    intros SF B Hfl I. apply dirs_in in Hfl. destruct Hfl as [files Hfl]. pose proof (proj1 SF) as Hl. unfold eco_sub.
    rewrite (proj2 (listdir_in _ _ _ (U2 d W _ _ Hl)) Hfl). pose proof (U3 d W _ _ _ _ Hl Hfl) as U.
    pose proof (g_sm _ _ _ G b f l fl files SF Hfl) as GD.
    eapply fine_weaken; [| |apply (loop_fine _ (fun _ => True) (fun _ => False))].
    - intros (files' & K & fi & t & Kf & C). exists fi. split; [|exact Logic.I].
      assert (files' = files) as -> by (apply (listdir_in _ _ _ (U2 d W _ _ Hl)) in K; apply (listdir_in _ _ _ (U2 d W _ _ Hl)) in Hfl; rewrite Hfl in K; congruence).
      apply csv_names_in. split; [exact C|exists t; exact Kf].
    - intros [].
    - intros fi st0 Hfi I0. destruct (days_read (fun s => s) files fi U GD Hfi) as (x & R & D & L). exact (sm_file_fine b files fi x st0 B R D L I0).
    - exact I.
  Qed.

  Lemma plug_sub_fine b f l fl st : plug_folder b f l -> (1 <= b)%Z -> In fl (dirs l) -> kinds (e_store st) ->
    fine st False (some_csv l fl) (eco_sub gone reactive nan day py_int b Plugs l fl st).
  Proof.
    intros PF B Hfl I. apply dirs_in in Hfl. destruct Hfl as [files Hfl]. unfold eco_sub.
    assert (UU : unique l /\ unique files).
    { destruct PF as (_ & _ & _ & _ & l0 & Hl0 & EP). assert (UU : l = l0 \/ In (substring 0 2 f, Dir l) l0) by (destruct EP as [(_ & ->)|(_ & K2)]; auto).
      destruct (plug_unique d W f l0 l fl files Hl0 UU) as [U1 U2]. split; [exact U1|exact (U2 Hfl)]. }
    destruct UU as [U1 U2]. rewrite (proj2 (listdir_in _ _ _ U1) Hfl).
    destruct (g_plugs _ _ _ G b f l fl files PF Hfl) as ((n & HN & N1) & GD & fi0 & t0 & K0 & C0). rewrite HN.
    unfold check_key. replace ((1 <=? b)%Z && (1 <=? n + 3)%Z) with true by (symmetry; apply andb_true_intro; split; apply Z.leb_le; lia).
    assert (KK : In fi0 (csv_names files)) by (apply csv_names_in; split; [exact C0|exists t0; exact K0]).
    assert (X : fine st False (some_csv l fl) (loop (eco_plug_file gone nan day b (n + 3) files) (csv_names files) st)).
    { eapply fine_weaken; [| |apply (loop_fine _ (fun _ => False) (fun _ => True))].
      - intros [].
      - intros _. exists fi0. auto.
      - intros fi st0 Hfi I0. destruct (days_read with_colons files fi U2 GD Hfi) as (x & R & D & L). refine (plug_file_fine b (n + 3) files fi x st0 _ R D L I0). lia.
      - exact I. }
    destruct (csv_names files) as [|a r]; [destruct KK|exact X].
  Qed.

  Definition sm_day (f : string) : Prop := exists b l fl, sm_folder b f l /\ some_csv l fl.
  Definition plug_day (f : string) : Prop := exists b l fl, plug_folder b f l /\ some_csv l fl.

  Lemma folder_fine f st : In f (folders d) -> kinds (e_store st) -> fine st (sm_day f) (plug_day f) (eco_folder gone reactive nan day py_int d f st).
  Proof.
    intros Hf I. apply folders_in in Hf. destruct Hf as [[t Hf] NT]. unfold eco_folder. fold (skipped f). destruct (skipped f) eqn:SK.
    { split; [reflexivity|]. split; [exact I|]. split; (intros [K|(b & l & fl & SF & _)]; [exact K|]); exfalso.
      - destruct SF as (_ & CO & _). apply considered_skipped in CO. rewrite SK in CO. destruct CO; discriminate.
      - destruct SF as (CO & _). apply considered_skipped in CO. rewrite SK in CO. destruct CO; discriminate. }
    assert (CO : considered f) by (apply considered_skipped; auto).
    destruct (g_number _ _ _ G f t Hf CO) as (b & HB & HD). unfold first_two. unfold of_building in HB. rewrite HB.
    destruct (contains "sm_csv" f) eqn:C1.
    - pose proof (proj1 (contains_has "sm_csv" f ltac:(discriminate)) C1) as HS. destruct (HD (or_introl HS)) as [B1 [l ->]].
      rewrite (proj2 (listdir_in f d l (proj1 W)) Hf). cbn [bind subfolders].
      assert (SF : sm_folder b f l) by (split; [exact Hf|]; auto).
      eapply fine_weaken; [| |apply (loop_fine _ (some_csv l) (fun _ => False))].
      + intros (b' & l' & fl & (Hl' & _) & SC).
        assert (l' = l) as -> by (apply (listdir_in f d l' (proj1 W)) in Hl'; apply (listdir_in f d l (proj1 W)) in Hf; rewrite Hf in Hl'; congruence).
        exists fl. split; [|exact SC]. apply sort_in, dirs_in. destruct SC as (files & K & _). exists files. exact K.
      + intros (b' & l' & fl & (_ & NS & _) & _). contradiction.
      + intros fl st0 Hfl I0. apply (sm_sub_fine b f l fl st0 SF B1); [apply sort_in; exact Hfl|exact I0].
      + exact I.
    - assert (NS : ~ has "sm_csv" f) by (apply contains_has_not; [discriminate|exact C1]). destruct (contains "plugs" f) eqn:C2.
      + pose proof (proj1 (contains_has "plugs" f ltac:(discriminate)) C2) as HS. destruct (HD (or_intror HS)) as [B1 [l0 ->]].
        rewrite (proj2 (listdir_in f d l0 (proj1 W)) Hf). cbn [bind].
        assert (X : exists l names, subfolders Plugs f l0 = Ok (l, names) /\ (3 <= n_dirs l0 /\ l = l0 \/ n_dirs l0 < 3 /\ In (substring 0 2 f, Dir l) l0) /\ forall x, In x names <-> In x (dirs l)).
        { cbn [subfolders]. rewrite sort_length, dirs_count. destruct (n_dirs l0 <? 3) eqn:C.
          - apply Nat.ltb_lt in C. destruct (g_nested _ _ _ G f l0 Hf CO NS HS C) as [l' K]. unfold first_two. rewrite (proj2 (listdir_in _ _ _ (U2 d W _ _ Hf)) K).
            cbn [bind]. exists l', (dirs l'). split; [reflexivity|]. split; [right; auto|reflexivity].
          - apply Nat.ltb_ge in C. exists l0, (sort_names (dirs l0)). split; [reflexivity|]. split; [left; auto|apply sort_in]. }
        destruct X as (l & names & -> & EP & IN).
        assert (PF : plug_folder b f l) by (split; [exact CO|]; split; [exact NS|]; split; [exact HS|]; split; [exact HB|]; exists l0; auto).
        eapply fine_weaken; [| |apply (loop_fine _ (fun _ => False) (some_csv l))].
        * intros (b' & l' & fl & (_ & _ & HS' & _) & _). contradiction.
        * intros (b' & l' & fl & (_ & _ & _ & _ & l1 & Hl1 & EP1) & SC).
          assert (l1 = l0) as -> by (apply (listdir_in f d l1 (proj1 W)) in Hl1; apply (listdir_in f d l0 (proj1 W)) in Hf; rewrite Hf in Hl1; congruence).
          assert (l' = l) as ->.
          { destruct EP as [[X ->]|[X K]], EP1 as [[X1 ->]|[X1 K1]]; [reflexivity|lia|lia|].
            apply (listdir_in _ _ _ (U2 d W _ _ Hf)) in K. apply (listdir_in _ _ _ (U2 d W _ _ Hf)) in K1. rewrite K in K1. congruence. }
          exists fl. split; [|exact SC]. apply IN, dirs_in. destruct SC as (files & K & _). exists files. exact K.
        * intros fl st0 Hfl I0. apply (plug_sub_fine b f l fl st0 PF B1); [apply IN; exact Hfl|exact I0].
        * exact I.
      + assert (NP : ~ has "plugs" f) by (apply contains_has_not; [discriminate|exact C2]).
        split; [reflexivity|]. split; [exact I|]. split; (intros [K|(b' & l & fl & SF & _)]; [exact K|]); exfalso.
        * destruct SF as (_ & _ & HS & _). contradiction.
        * destruct SF as (_ & _ & HS & _). contradiction.
  Qed.

  Theorem succeeds : exists s, convert_eco gone reactive nan day py_int d = (s, None).
  Proof.
    unfold convert_eco. fold (folders d).
    destruct (loop_fine (eco_folder gone reactive nan day py_int d) sm_day plug_day (folders d) folder_fine (mkState [] false false)) as (N & _ & A & B); [intros k c r K; discriminate K|].
    destruct (loop _ _ _) as [st o]. cbn [fst snd] in *. subst o. exists (e_store st). rewrite A, B; [reflexivity| |]; right.
    - destruct (g_some_plug _ _ _ G) as (b & f & l & sub & files & fi & t & PF & Hs & Hf & C). exists f. split.
      + apply folders_in. destruct PF as (CO & _ & _ & _ & l0 & K & _). split; [exists (Dir l0); exact K|apply CO].
      + exists b, l, sub. split; [exact PF|]. exists files. split; [exact Hs|]. exists fi, t. auto.
    - destruct (g_some_sm _ _ _ G) as (b & f & l & sub & files & fi & t & PF & Hs & Hf & C). exists f. split.
      + apply folders_in. destruct PF as (K & CO & _). split; [exists (Dir l); exact K|apply CO].
      + exists b, l, sub. split; [exact PF|]. exists files. split; [exact Hs|]. exists fi, t. auto.
  Qed.
End Proofs.

Section Missing.
  Context {V : Type}.
  Variable gone : V -> bool.
  Variable reactive : V -> V -> V.
  Variable nan : V.
  Variable day : string -> option Z.
  Variable py_int : string -> option Z.

  Lemma loop_flag {X} (g : state (V:=V) -> bool) (f : X -> state -> state * option exn) (q : X -> Prop) l :
    (forall x st st', In x l -> f x st = (st', None) -> g st' = true -> g st = true \/ q x) ->
    forall st st', loop f l st = (st', None) -> g st' = true -> g st = true \/ exists x, In x l /\ q x.
  Proof.
    induction l as [|x l IH]; intros H st st'; cbn [loop]; [intros [= <-]; auto|]. destruct (f x st) as [st1 [e|]] eqn:E; [discriminate|]. intros L K.
    destruct (IH (fun y s s' Hy => H y s s' (or_intror Hy)) st1 st' L K) as [K1|(y & Hy & Q)]; [|right; exists y; split; [right; exact Hy|exact Q]].
    destruct (H x st st1 (or_introl eq_refl) E K1) as [K2|Q]; [left; exact K2|]. right. exists x. split; [left; reflexivity|exact Q].
  Qed.

  Lemma set_store_flags (st : state (V:=V)) r st' : set_store st r = (st', None) -> e_sm st' = e_sm st /\ e_plug st' = e_plug st.
  Proof. unfold set_store. intros [= <- _]. split; reflexivity. Qed.
  Lemma phase_flags b fi l p st st' : eco_phase gone reactive nan day b fi l p st = (st', None) -> e_sm st' = e_sm st /\ e_plug st' = e_plug st.
  Proof. unfold eco_phase. destruct (bind _ _) as [new|e]; [apply set_store_flags|discriminate]. Qed.
  Lemma phases_flags b fi l ps st st' : loop (eco_phase gone reactive nan day b fi l) ps st = (st', None) -> e_sm st' = e_sm st /\ e_plug st' = e_plug st.
  Proof.
    revert st. induction ps as [|p ps IH]; intros st; cbn [loop]; [intros [= <-]; auto|]. destruct (eco_phase _ _ _ _ _ _ _ _ _) as [st1 [e|]] eqn:E; [discriminate|].
    intros L. destruct (IH _ L) as [A B]. destruct (phase_flags _ _ _ _ _ _ E) as [A1 B1]. split; congruence.
  Qed.
  Lemma sm_file_plug b files fi st st' : eco_sm_file gone reactive nan day b files fi st = (st', None) -> e_plug st' = e_plug st.
  Proof. unfold eco_sm_file. destruct (read_csv files fi); [|discriminate]. intros L. exact (proj2 (phases_flags _ _ _ _ _ _ L)). Qed.
  Lemma plug_file_sm b m files fi st st' : eco_plug_file gone nan day b m files fi st = (st', None) -> e_sm st' = e_sm st.
  Proof. unfold eco_plug_file. destruct (bind _ _); [|discriminate]. intros L. exact (proj1 (set_store_flags _ _ _ L)). Qed.

  Definition holds_day (kd kd' : kind) (l : listing V) fl : Prop := kd = kd' /\ exists files, listdir l fl = Ok files /\ exists fi, In fi (csv_names files).
  Lemma sub_sm b kd l fl st st' : eco_sub gone reactive nan day py_int b kd l fl st = (st', None) -> e_sm st' = true -> e_sm st = true \/ holds_day kd Sm l fl.
  Proof.
    unfold eco_sub, holds_day. destruct (listdir l fl) as [files|e]; [|discriminate]. destruct kd.
    - intros L K. destruct (loop_flag e_sm _ (fun _ => True) _ (fun _ _ _ _ _ _ => or_intror I) _ _ L K) as [Q|(fi & Q & _)]; [left; exact Q|].
      right. split; [reflexivity|]. exists files. split; [reflexivity|]. exists fi. exact Q.
    - destruct (py_int fl) as [n|]; [|discriminate]. destruct (check_key b (n + 3)); [|discriminate]. destruct (csv_names files) as [|x r]; [discriminate|].
      intros L K. destruct (loop_flag e_sm _ (fun _ => False) _ (fun fi s s' _ E Q => or_introl (eq_trans (eq_sym (plug_file_sm b (n + 3) files fi s s' E)) Q)) _ _ L K) as [Q|(fi & _ & [])]. left. exact Q.
  Qed.
  Lemma sub_plug b kd l fl st st' : eco_sub gone reactive nan day py_int b kd l fl st = (st', None) -> e_plug st' = true -> e_plug st = true \/ holds_day kd Plugs l fl.
  Proof.
    unfold eco_sub, holds_day. destruct (listdir l fl) as [files|e]; [|discriminate]. destruct kd.
    - intros L K. destruct (loop_flag e_plug _ (fun _ => False) _ (fun fi s s' _ E Q => or_introl (eq_trans (eq_sym (sm_file_plug b files fi s s' E)) Q)) _ _ L K) as [Q|(fi & _ & [])]. left. exact Q.
    - destruct (py_int fl) as [n|]; [|discriminate]. destruct (check_key b (n + 3)); [|discriminate]. destruct (csv_names files) as [|x r] eqn:C; [discriminate|].
      intros _ _. right. split; [reflexivity|]. exists files. split; [reflexivity|]. exists x. rewrite C. left. reflexivity.
  Qed.

  Variable d : listing V.
  Hypothesis W : well_named d.

  Definition has_day (kd : kind) (f : string) : Prop := exists b l sub files fi t,
    (match kd with Sm => EcoSpec.sm_folder py_int d b f l | Plugs => EcoSpec.plug_folder py_int d b f l end) /\ In (sub, Dir files) l /\ In (fi, t) files /\ has ".csv" fi.

  Lemma folder_flags f st st' : In f (folders d) -> eco_folder gone reactive nan day py_int d f st = (st', None) ->
    (e_sm st' = true -> e_sm st = true \/ has_day Sm f) /\ (e_plug st' = true -> e_plug st = true \/ has_day Plugs f).
  Proof.
    intros Hf. apply folders_in in Hf. destruct Hf as [_ NT]. unfold eco_folder. fold (skipped f). destruct (skipped f) eqn:SK; [intros [= <-]; split; auto|].
    destruct (py_int (first_two f)) as [b|] eqn:HB; [|discriminate].
    assert (CO : considered f) by (apply considered_skipped; auto).
    assert (GG : forall kd, folder_kind f = Some kd -> match parts kd d f with Err e => (st, Some e) | Ok (l, names) => loop (eco_sub gone reactive nan day py_int b kd l) names st end = (st', None) ->
      (e_sm st' = true -> e_sm st = true \/ has_day Sm f) /\ (e_plug st' = true -> e_plug st = true \/ has_day Plugs f)).
    { intros kd FK. destruct (parts kd d f) as [[l names]|e] eqn:EP; [|discriminate]. intros L.
      destruct (parts_spec py_int d W kd f l names CO FK EP b HB) as (SP & U & ND & IN & UF).
      assert (HH : forall k fl, holds_day kd k l fl -> has_day k f).
      { intros k fl (<- & files & LD & fi & Hfi). apply csv_names_in in Hfi. destruct Hfi as [C [t Hfi]]. destruct (UF fl files LD) as [K _].
        exists b, l, fl, files, fi, t. split; [destruct kd; exact SP|]. auto. }
      split; intros K.
      - destruct (loop_flag e_sm _ (holds_day kd Sm l) _ (fun fl s s' _ => sub_sm b kd l fl s s') _ _ L K) as [Q|(fl & _ & Q)]; [left; exact Q|right; exact (HH _ _ Q)].
      - destruct (loop_flag e_plug _ (holds_day kd Plugs l) _ (fun fl s s' _ => sub_plug b kd l fl s s') _ _ L K) as [Q|(fl & _ & Q)]; [left; exact Q|right; exact (HH _ _ Q)]. }
    unfold folder_kind in GG. destruct (contains "sm_csv" f); [exact (GG Sm eq_refl)|]. destruct (contains "plugs" f); [exact (GG Plugs eq_refl)|]. intros [= <-]. split; auto.
  Qed.

  Theorem both_found s : convert_eco gone reactive nan day py_int d = (s, None) -> (exists f, has_day Sm f) /\ (exists f, has_day Plugs f).
  Proof.
    unfold convert_eco. fold (folders d). destruct (loop _ _ _) as [st [e|]] eqn:L; [discriminate|]. destruct (e_plug st && e_sm st) eqn:E; [|discriminate]. intros _.
    apply andb_prop in E. destruct E as [EP ES]. split.
    - destruct (loop_flag e_sm _ (has_day Sm) _ (fun f s s' Hf E => proj1 (folder_flags f s s' Hf E)) _ _ L ES) as [Q|(f & _ & Q)]; [discriminate|exists f; exact Q].
    - destruct (loop_flag e_plug _ (has_day Plugs) _ (fun f s s' Hf E => proj2 (folder_flags f s s' Hf E)) _ _ L EP) as [Q|(f & _ & Q)]; [discriminate|exists f; exact Q].
  Qed.

  (** ** What must hold of every entry *)
  Theorem entries s f t : convert_eco gone reactive nan day py_int d = (s, None) -> In (f, t) d -> considered f ->
    (exists b, of_building py_int f b) /\ (has "sm_csv" f \/ has "plugs" f -> exists l, t = Dir l) /\
    forall l sub files b, EcoSpec.plug_folder py_int d b f l -> In (sub, Dir files) l -> exists n, py_int sub = Some n.
  Proof.
    intros C Hf CO. destruct (convert_tab gone reactive nan day py_int d s C) as [P _]. assert (Hff : In f (folders d)) by (apply folders_in; split; [exists t; exact Hf|apply CO]).
    specialize (P f Hff). pose proof (proj2 (proj1 (considered_skipped f) CO)) as SK. destruct (P SK) as [[b HB] PK]. split; [exists b; exact HB|]. split.
    - intros HS. assert (X : exists kd, folder_kind f = Some kd).
      { destruct (folder_kind f) as [kd|] eqn:FK; [exists kd; reflexivity|]. unfold folder_kind in FK.
        destruct (contains "sm_csv" f) eqn:C1; [discriminate|]. destruct (contains "plugs" f) eqn:C2; [discriminate|].
        apply contains_has_not in C1, C2; try discriminate. tauto. }
      destruct X as [kd FK]. destruct (PK kd FK) as (l & names & EP & _). unfold parts, listdir in EP. rewrite (proj2 (entry_in f d t (proj1 W)) Hf) in EP.
      destruct t as [c|l']; [discriminate|]. exists l'. reflexivity.
    - intros l sub files b' PF Hs. pose proof PF as (_ & NS & HS & _ & l0 & Hl0 & EP0).
      destruct (PK Plugs (proj2 (kind_plugs f) (conj NS HS))) as (l1 & names & EP & PS).
      assert (X : exists ns, parts Plugs d f = Ok (l, ns) /\ forall x, In x ns <-> In x (dirs l)).
      { destruct EP0 as [(X & ->)|(X & K2)].
        - exists (sort_names (dirs l0)). split; [apply (plug_parts d W); exists l0; split; [exact Hl0|left; auto]|apply sort_in].
        - exists (dirs l). split; [apply (plug_parts d W); exists l0; split; [exact Hl0|right; auto]|reflexivity]. }
      destruct X as (ns & EX & IX). rewrite EX in EP. injection EP as <- <-.
      destruct (PS sub (proj2 (IX sub) (proj2 (dirs_in sub l) (ex_intro _ files Hs)))) as (x & _ & K & _). exact K.
  Qed.

  (** ** Few plugs *)
  Theorem few_plugs s b f l m : convert_eco gone reactive nan day py_int d = (s, None) -> In (f, Dir l) d ->
    (forall f' l', EcoSpec.plug_folder py_int d b f' l' -> f' = f) -> n_dirs l < 3 ->
    (forall sub files n t, In (sub, Dir files) l -> In (n, t) files -> exists c, t = File c) ->
    (3 < m)%Z -> stored s b m = [].
  Proof.
    intros C Hf ONE N FLAT M. destruct (stored s b m) as [|[t v] r] eqn:E; [reflexivity|]. exfalso.
    assert (K : In (t, v) (stored s b m)) by (rewrite E; left; reflexivity). apply (readings gone reactive nan day py_int d W s b m t v C) in K.
    destruct K as [(f' & l' & sub & files & fi & line & _ & _ & _ & X & _)|(f' & l' & sub & files & fi & line & PF & HI & _)]; [lia|].
    pose proof (ONE f' l' PF) as ->. destruct PF as (_ & _ & _ & _ & l0 & Hl0 & EP).
    assert (l0 = l) as -> by (apply (listdir_in f d l0 (proj1 W)) in Hl0; apply (listdir_in f d l (proj1 W)) in Hf; rewrite Hf in Hl0; congruence).
    destruct EP as [[X _]|[_ K]]; [lia|]. destruct (FLAT _ _ _ _ K HI) as [c X]. discriminate.
  Qed.

  (** ** Folders of other names *)
  Lemma loop_skip {X} (f g : X -> state (V:=V) -> state * option exn) (p : X -> bool) l (st : state (V:=V)) :
    (forall x s, In x l -> p x = false -> f x s = (s, None)) -> (forall x s, In x l -> p x = true -> f x s = g x s) -> loop f l st = loop g (filter p l) st.
  Proof.
    revert st. induction l as [|x l IH]; intros st A B; cbn [loop filter]; [reflexivity|]. destruct (p x) eqn:E.
    - cbn [loop]. rewrite (B x st (or_introl eq_refl) E). destruct (g x st) as [s [e|]]; [reflexivity|]. apply IH; intros; [apply A|apply B]; try (right; assumption); assumption.
    - rewrite (A x st (or_introl eq_refl) E). apply IH; intros; [apply A|apply B]; try (right; assumption); assumption.
  Qed.
End Missing.

(** Sorting does not mind what is filtered. *)
Lemma filter_insert p x l : StronglySorted (fun x y => String.leb x y = true) l ->
  filter p (insert_name x l) = if p x then insert_name x (filter p l) else filter p l.
Proof.
  induction 1 as [|y l K IH F]; cbn [insert_name filter]; [destruct (p x); reflexivity|]. destruct (String.leb x y) eqn:E; cbn [filter].
  - destruct (p x); [|reflexivity]. destruct (p y); cbn [insert_name]; [rewrite E; reflexivity|].
    destruct (filter p l) as [|z r] eqn:FL; cbn [insert_name]; [reflexivity|].
    assert (Hz : In z l) by (apply (proj1 (filter_In p z l)); rewrite FL; left; reflexivity). rewrite Forall_forall in F.
    rewrite (leb_trans _ _ _ E (F z Hz)). reflexivity.
  - rewrite IH. destruct (p y), (p x); cbn [insert_name]; try rewrite E; reflexivity.
Qed.
Lemma filter_sort p l : filter p (sort_names l) = sort_names (filter p l).
Proof.
  induction l as [|x l IH]; cbn [sort_names fold_right filter]; [reflexivity|]. fold (sort_names l). rewrite (filter_insert p x _ (sort_sorted l)), IH.
  destruct (p x); reflexivity.
Qed.

Section Skip.
  Context {V : Type}.
  Variable gone : V -> bool.
  Variable reactive : V -> V -> V.
  Variable nan : V.
  Variable day : string -> option Z.
  Variable py_int : string -> option Z.

  Theorem skipped_folder (before after : listing V) f t b : unique (before ++ (f, t) :: after) -> py_int (substring 0 2 f) = Some b -> ~ has "sm_csv" f -> ~ has "plugs" f ->
    convert_eco gone reactive nan day py_int (before ++ (f, t) :: after) = convert_eco gone reactive nan day py_int (before ++ after).
  Proof.
    intros U HB N1 N2. unfold convert_eco.
    set (p := fun s => negb (String.eqb s f)).
    rewrite (loop_skip (eco_folder gone reactive nan day py_int (before ++ (f, t) :: after)) (eco_folder gone reactive nan day py_int (before ++ after)) p).
    - rewrite filter_sort.
      assert (E : filter p (filter (fun s => negb (contains ".txt" s)) (map fst (before ++ (f, t) :: after))) = filter (fun s => negb (contains ".txt" s)) (map fst (before ++ after))).
      { unfold unique in U. rewrite !map_app in *. cbn [map fst] in *.
        assert (NI : ~ In f (map fst before ++ map fst after)) by exact (NoDup_remove_2 _ _ _ U). generalize dependent (map fst before). generalize dependent (map fst after). intros a b0 _ NI.
        assert (ID : forall q l, ~ In f l -> filter p (filter q l) = filter q l).
        { intros q l. induction l as [|x l IH]; cbn [filter]; [reflexivity|]. intros K. destruct (q x); cbn [filter]; [|apply IH; intros X; apply K; right; exact X].
          unfold p at 1. destruct (String.eqb x f) eqn:E; [apply String.eqb_eq in E; subst x; exfalso; apply K; left; reflexivity|]. cbn [negb]. rewrite IH; [reflexivity|]. intros X; apply K; right; exact X. }
        rewrite !filter_app. rewrite ID by (intros X; apply NI, in_or_app; left; exact X). f_equal. cbn [filter].
        destruct (negb (contains ".txt" f)); [cbn [filter]; unfold p at 1; rewrite String.eqb_refl; cbn [negb]|]; apply ID; intros X; apply NI, in_or_app; right; exact X. }
      rewrite E. reflexivity.
    - intros x s _ K. unfold p in K. apply Bool.negb_false_iff, String.eqb_eq in K. subst x. unfold eco_folder.
      destruct (_ || _); [reflexivity|]. unfold first_two. rewrite HB. apply contains_has_not in N1, N2; try discriminate. rewrite N1, N2. reflexivity.
    - intros x s _ K. unfold p in K. apply Bool.negb_true_iff in K. unfold eco_folder.
      assert (E : entry x (before ++ (f, t) :: after) = entry x (before ++ after)).
      { clear - K. induction before as [|[a y] r IH]; cbn [List.app entry]; [rewrite K; reflexivity|]. destruct (String.eqb x a); [reflexivity|exact IH]. }
      assert (L : listdir (before ++ (f, t) :: after) x = listdir (before ++ after) x) by (unfold listdir; rewrite E; reflexivity). rewrite L. reflexivity.
  Qed.
End Skip.
