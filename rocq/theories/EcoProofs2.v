(** Proofs about importing the ECO data set: the order of what is stored, and
    when the conversion succeeds. *)
From Coq Require Import String Ascii Permutation Sorted OrderedTypeEx.
From Verif Require Import Base EcoModel EcoSpec EcoProofs.
Import List. Open Scope list_scope. Open Scope nat_scope.

(** ** Sorting names *)
Lemma leb_cases x y : String.leb x y = true <-> String_as_OT.lt x y \/ x = y.
Proof.
  unfold String.leb. rewrite <- String_as_OT.cmp_lt, <- String_as_OT.cmp_eq. change String_as_OT.cmp with String.compare.
  destruct (String.compare x y); split; auto; try discriminate. intros [K|K]; discriminate.
Qed.
Lemma leb_trans x y z : String.leb x y = true -> String.leb y z = true -> String.leb x z = true.
Proof.
  rewrite !leb_cases. intros [H|H] [K|K]; subst; auto. left. exact (String_as_OT.lt_trans x y z H K).
Qed.
Lemma leb_false x y : String.leb x y = false -> String.leb y x = true.
Proof. intros K. destruct (String.leb_total x y) as [E|E]; congruence. Qed.

Notation before := (fun x y => String.leb x y = true).
Lemma insert_sorted x l : StronglySorted before l -> StronglySorted before (insert_name x l).
Proof.
  induction 1 as [|y l K IH F]; cbn [insert_name]; [constructor; constructor|]. destruct (String.leb x y) eqn:E.
  - constructor; [constructor; assumption|]. constructor; [exact E|]. rewrite Forall_forall in F |- *. intros z Hz. exact (leb_trans _ _ _ E (F z Hz)).
  - constructor; [exact IH|]. apply leb_false in E. rewrite Forall_forall in F |- *. intros z Hz.
    apply (Permutation_in _ (insert_perm x l)) in Hz. destruct Hz as [<-|Hz]; [exact E|exact (F z Hz)].
Qed.
Lemma sort_sorted l : StronglySorted before (sort_names l).
Proof. induction l as [|x l IH]; cbn [sort_names fold_right]; [constructor|]. apply insert_sorted. exact IH. Qed.

Lemma nodup_sorted {X} (R : X -> X -> Prop) l : NoDup l -> StronglySorted R l -> StronglySorted (fun x y => R x y /\ x <> y) l.
Proof.
  induction 2 as [|y l K IH F]; [constructor|]. apply NoDup_cons_iff in H. destruct H as [NI ND]. constructor; [exact (IH ND)|].
  rewrite Forall_forall in F |- *. intros z Hz. split; [exact (F z Hz)|]. intros ->. exact (NI Hz).
Qed.
Lemma nodup_neq {X} (l : list X) : NoDup l -> StronglySorted (fun x y => x <> y) l.
Proof.
  induction 1 as [|x l NI ND IH]; constructor; [exact IH|]. rewrite Forall_forall. intros y Hy ->. exact (NI Hy).
Qed.

Section Order.
  Context {V : Type}.
  Notation rows := (list (Z * list V)).
  Definition inc (r : rows) : Prop := StronglySorted (fun a b => (fst a < fst b)%Z) r.

  Lemma inc_app a b : inc a -> inc b -> (forall x y, In x a -> In y b -> (fst x < fst y)%Z) -> inc (a ++ b).
  Proof.
    intros A B H. induction A as [|x a K IH F]; [exact B|]. cbn [List.app]. constructor; [apply IH; intros; apply H; [right|]; assumption|].
    rewrite Forall_forall in F |- *. intros y Hy. apply in_app_or in Hy. destruct Hy as [Hy|Hy]; [exact (F y Hy)|]. apply H; [left; reflexivity|exact Hy].
  Qed.
  Lemma inc_flat {X} (R : X -> X -> Prop) (c : X -> rows) l : StronglySorted R l -> (forall x, In x l -> inc (c x)) ->
    (forall x y r r', In x l -> In y l -> R x y -> In r (c x) -> In r' (c y) -> (fst r < fst r')%Z) -> inc (flat_map c l).
  Proof.
    induction 1 as [|x l K IH F]; intros I H; cbn [flat_map]; [constructor|]. apply inc_app.
    - apply I. left. reflexivity.
    - apply IH; [intros y Hy; apply I; right; exact Hy|]. intros y z r r' Hy Hz. apply H; right; assumption.
    - intros r r' Hr Hr'. apply in_flat_map in Hr'. destruct Hr' as (y & Hy & Hr'). rewrite Forall_forall in F.
      exact (H x y r r' (or_introl eq_refl) (or_intror Hy) (F y Hy) Hr Hr').
  Qed.
  (** When no two contribute. *)
  Lemma inc_one {X} (c : X -> rows) l : NoDup l -> (forall x, In x l -> inc (c x)) ->
    (forall x y r r', In x l -> In y l -> In r (c x) -> In r' (c y) -> x = y) -> inc (flat_map c l).
  Proof.
    intros ND I H. apply (inc_flat (fun x y => x <> y)); [apply nodup_neq; exact ND|exact I|].
    intros x y r r' Hx Hy N Hr Hr'. exfalso. exact (N (H x y r r' Hx Hy Hr Hr')).
  Qed.
  Lemma inc_filter p (r : rows) : inc r -> inc (filter p r).
  Proof.
    induction 1 as [|x l K IH F]; cbn [filter]; [constructor|]. destruct (p x); [|exact IH]. constructor; [exact IH|].
    rewrite Forall_forall in F |- *. intros y Hy. apply filter_In in Hy. exact (F y (proj1 Hy)).
  Qed.
  Lemma inc_seconds dd (l : list (list V)) : inc (seconds dd l).
  Proof.
    revert dd. induction l as [|x l IH]; intros dd; cbn [seconds]; [constructor|].
    constructor; [exact (IH (dd + 1)%Z)|]. rewrite Forall_forall. clear IH. intros [t v] K. cbn [fst].
    assert (G : forall l e, In (t, v) (seconds (V := V) e l) -> (e <= t)%Z).
    { clear. induction l as [|y l IH]; intros e; cbn [seconds In]; [intros []|]. intros [[= <- _]|K]; [lia|]. pose proof (IH _ K). lia. }
    pose proof (G l _ K). lia.
  Qed.
End Order.

Section Proofs.
  Context {V : Type}.
  Variable gone : V -> bool.
  Variable reactive : V -> V -> V.
  Variable nan : V.
  Variable day : string -> option Z.
  Variable py_int : string -> option Z.
  Notation rows := (list (Z * list V)).
  Notation day_rows := (day_rows gone nan day).

  Lemma day_rows_inc start l : inc (okr (day_rows start l)).
  Proof.
    unfold EcoModel.day_rows. destruct (day start); [|constructor]. destruct (_ =? _)%Z; [|constructor]. cbn [okr]. apply inc_filter, inc_seconds.
  Qed.
  Lemma day_rows_range start l r : In r (okr (day_rows start l)) -> exists midnight, day start = Some midnight /\ (midnight <= fst r < midnight + 86400)%Z.
  Proof.
    unfold EcoModel.day_rows. destruct (day start) as [m|]; [|intros []]. destruct (_ =? _)%Z eqn:E; [|intros []]. cbn [okr]. intros K. apply filter_In in K.
    destruct K as [K _]. destruct r as [t v]. apply seconds_in in K. destruct K as (i & K & ->). exists m. split; [reflexivity|]. cbn [fst].
    assert (i < List.length l) by (apply nth_error_Some; rewrite K; discriminate). apply Z.eqb_eq in E. lia.
  Qed.

  Notation c_sm := (c_sm gone reactive nan day).
  Notation c_plug := (c_plug gone nan day).
  Lemma c_sm_inc b (files : listing V) fi k : inc (c_sm b files fi k).
  Proof.
    unfold EcoProofs.c_sm. destruct (read_csv files fi) as [l|e]; [|constructor]. apply inc_one.
    - repeat constructor; cbn; intuition discriminate.
    - intros p _. unfold c_phase. destruct (key_eqb _ _); [|constructor]. apply day_rows_inc.
    - intros p q r r' _ _. unfold c_phase. destruct (key_eqb k (b, Z.of_nat p)) eqn:E; [|intros []]. destruct (key_eqb k (b, Z.of_nat q)) eqn:E2; [|intros _ []].
      intros _ _. apply key_eqb_spec in E, E2. rewrite E in E2. injection E2. lia.
  Qed.
  Lemma c_sm_range b (files : listing V) fi k r : In r (c_sm b files fi k) -> exists midnight, day (date fi) = Some midnight /\ (midnight <= fst r < midnight + 86400)%Z.
  Proof.
    unfold EcoProofs.c_sm. destruct (read_csv files fi) as [l|e]; [|intros []]. intros K. apply in_flat_map in K. destruct K as (p & _ & K).
    unfold c_phase in K. destruct (key_eqb _ _); [|destruct K]. exact (day_rows_range _ _ _ K).
  Qed.
  Lemma c_plug_inc b m (files : listing V) fi k : inc (c_plug b m files fi k).
  Proof.
    unfold EcoProofs.c_plug. destruct (key_eqb _ _); [|constructor]. unfold plug_rows. destruct (read_csv files fi) as [l|e]; cbn [bind]; [|constructor]. apply day_rows_inc.
  Qed.
  Lemma c_plug_range b m (files : listing V) fi k r : In r (c_plug b m files fi k) -> exists midnight, day (with_colons (date fi)) = Some midnight /\ (midnight <= fst r < midnight + 86400)%Z.
  Proof.
    unfold EcoProofs.c_plug. destruct (key_eqb _ _); [|intros []]. unfold plug_rows. destruct (read_csv files fi) as [l|e]; cbn [bind]; [|intros []].
    intros K. rewrite <- colons_with. exact (day_rows_range _ _ _ K).
  Qed.

  Lemma files_inc start (files : listing V) (c : string -> rows) : unique files -> in_order day start files -> (forall fi, inc (c fi)) ->
    (forall fi r, In r (c fi) -> exists midnight, day (start (date fi)) = Some midnight /\ (midnight <= fst r < midnight + 86400)%Z) ->
    inc (flat_map c (csv_names files)).
  Proof.
    intros U O I R. apply (inc_flat (fun x y => String.leb x y = true /\ x <> y)).
    - apply nodup_sorted; [|apply sort_sorted]. apply sort_nodup. apply NoDup_filter. exact U.
    - intros fi _. apply I.
    - intros fi fj r r' Hi Hj [L N] Hr Hr'. apply csv_names_in in Hi, Hj. destruct Hi as [Ci [ti Hi]], Hj as [Cj [tj Hj]].
      destruct (R fi r Hr) as (x & Dx & Rx). destruct (R fj r' Hr') as (y & Dy & Ry).
      apply (in_map fst) in Hi, Hj. pose proof (O fi fj x y Hi Hj Ci Cj L N Dx Dy). lia.
  Qed.

  Variable d : listing V.
  Hypothesis W : well_named d.
  Let U1 : unique d := proj1 W.

  Notation sm_folder := (sm_folder py_int d).
  Notation plug_folder := (plug_folder py_int d).

  Lemma sub_keys b kd l fl b' m r : In r (c_sub gone reactive nan day py_int b kd l fl (b', m)) ->
    b' = b /\ exists files, listdir l fl = Ok files /\ match kd with Sm => (1 <= m <= 3)%Z | Plugs => py_int fl = Some (m - 3)%Z end.
  Proof.
    unfold c_sub. destruct (listdir l fl) as [files|e]; [|intros []]. destruct kd.
    - intros K. apply in_flat_map in K. destruct K as (fi & _ & K). unfold EcoProofs.c_sm in K. destruct (read_csv files fi) as [x|e]; [|destruct K].
      apply in_flat_map in K. destruct K as (p & Hp & K). unfold c_phase in K. destruct (key_eqb _ _) eqn:E; [|destruct K]. apply key_eqb_spec in E. injection E as -> ->.
      split; [reflexivity|]. exists files. split; [reflexivity|]. destruct Hp as [<-|[<-|[<-|[]]]]; lia.
    - destruct (py_int fl) as [n|]; [|intros []]. intros K. apply in_flat_map in K. destruct K as (fi & _ & K). unfold EcoProofs.c_plug in K.
      destruct (key_eqb _ _) eqn:E; [|destruct K]. apply key_eqb_spec in E. injection E as -> ->. split; [reflexivity|]. exists files. split; [reflexivity|]. f_equal. lia.
  Qed.

  (** A folder that contributes is one of the specification. *)
  Lemma parts_spec kd f l names : considered f -> folder_kind f = Some kd -> parts kd d f = Ok (l, names) -> forall b, py_int (first_two f) = Some b ->
    match kd with Sm => sm_folder b f l | Plugs => plug_folder b f l end /\ unique l /\ NoDup names /\ (forall x, In x names <-> In x (dirs l)) /\
    forall sub files, listdir l sub = Ok files -> In (sub, Dir files) l /\ unique files.
  Proof.
    intros CO FK EP b HB.
    assert (ND : forall x : listing V, unique x -> NoDup (dirs x)).
    { unfold unique, dirs. intros x. induction x as [|[a t] x IH]; cbn [map filter]; [intros _; constructor|]. intros K. apply NoDup_cons_iff in K. destruct K as [NI K].
      destruct (is_dir (a, t)); [|exact (IH K)]. cbn [map]. constructor; [|exact (IH K)]. intros X. apply NI. apply in_map_iff in X. destruct X as (y & <- & X).
      apply filter_In in X. apply in_map. exact (proj1 X). }
    destruct kd.
    - apply kind_sm in FK. apply (sm_parts d W) in EP. destruct EP as [Hl ->]. split; [split; [exact Hl|]; auto|]. pose proof (U2 d W _ _ Hl) as U. split; [exact U|].
      split; [apply sort_nodup, ND, U|]. split; [apply sort_in|]. intros sub files L. apply (listdir_in _ _ _ U) in L. split; [exact L|]. exact (U3 d W _ _ _ _ Hl L).
    - apply kind_plugs in FK. apply (plug_parts d W) in EP. destruct EP as (l0 & Hl0 & EP).
      assert (UU : l = l0 \/ In (substring 0 2 f, Dir l) l0) by (destruct EP as [(_ & -> & _)|(_ & K2 & _)]; auto).
      assert (U : unique l) by exact (proj1 (plug_unique d W f l0 l f [] Hl0 UU)).
      split; [split; [exact CO|]; split; [apply FK|]; split; [apply FK|]; split; [exact HB|]; exists l0; split; [exact Hl0|]; destruct EP as [(X & -> & _)|(X & K2 & _)]; auto|].
      split; [exact U|]. destruct EP as [(X & -> & ->)|(X & K2 & ->)]; (split; [try apply sort_nodup; apply ND, U|]); (split; [try apply sort_in; reflexivity|]);
        intros sub files L; (split; [apply (listdir_in _ _ _ U); exact L|]); destruct (plug_unique d W f l0 _ sub files Hl0 UU) as [_ UF]; apply UF, (listdir_in _ _ _ U), L.
  Qed.

  Lemma folder_keys f b m r : In f (folders d) -> P_folder gone reactive nan day py_int d f -> In r (c_folder gone reactive nan day py_int d f (b, m)) ->
    exists l sub files, In (sub, Dir files) l /\ (sm_folder b f l /\ (1 <= m <= 3)%Z \/ plug_folder b f l /\ py_int sub = Some (m - 3)%Z).
  Proof.
    intros Hf P K. apply folders_in in Hf. destruct Hf as [_ NT]. unfold c_folder in K.
    destruct (skipped f) eqn:SK; [destruct K|]. destruct (P SK) as [[b0 HB] PK]. rewrite HB in K. destruct (folder_kind f) as [kd|] eqn:FK; [|destruct K].
    destruct (PK kd eq_refl) as (l & names & EP & PS). rewrite EP in K. apply in_flat_map in K. destruct K as (fl & Hfl & K).
    destruct (sub_keys _ _ _ _ _ _ _ K) as (-> & files & L & KK).
    destruct (parts_spec kd f l names (proj2 (considered_skipped f) (conj NT SK)) FK EP b0 HB) as (SP & U & ND & _ & UF). destruct (UF fl files L) as [UF1 _].
    exists l, fl, files. split; [exact UF1|]. destruct kd; [left|right]; auto.
  Qed.

  Theorem ordered s b m : convert_eco gone reactive nan day py_int d = (s, None) -> one_each day py_int d ->
    StronglySorted (fun x y => (fst x < fst y)%Z) (stored s b m).
  Proof.
    intros C (OS & OP & ON). destruct (convert_tab gone reactive nan day py_int d s C) as [P TT]. change (stored s b m) with (tab s (b, m)). rewrite TT. apply inc_one.
    - apply sort_nodup, NoDup_filter. exact U1.
    - intros f Hf. specialize (P f Hf). pose proof Hf as Hf'. apply folders_in in Hf'. destruct Hf' as [_ NT]. unfold c_folder.
      destruct (skipped f) eqn:SK; [constructor|]. destruct (P SK) as [[b0 HB] PK]. rewrite HB. destruct (folder_kind f) as [kd|] eqn:FK; [|constructor].
      destruct (PK kd eq_refl) as (l & names & EP & PS). rewrite EP.
      destruct (parts_spec kd f l names (proj2 (considered_skipped f) (conj NT SK)) FK EP b0 HB) as (SP & U & ND & IN & UF).
      apply inc_one; [exact ND| |].
      + intros fl Hfl. destruct (PS fl Hfl) as (files & L & PF). destruct (UF fl files L) as [HI HU]. unfold c_sub. rewrite L. destruct kd.
        * apply (files_inc (fun s => s)); [exact HU| | |].
          -- exact (proj2 (proj2 (OS b0 f l fl files f l fl files SP HI SP HI))).
          -- intros fi. apply c_sm_inc.
          -- intros fi r. apply c_sm_range.
        * destruct PF as [[n HN] PF]. rewrite HN. apply (files_inc with_colons); [exact HU| | |].
          -- exact (proj2 (proj2 (OP b0 n f l fl files f l fl files SP HI HN SP HI HN))).
          -- intros fi. apply c_plug_inc.
          -- intros fi r. apply c_plug_range.
      + intros fl fl' r r' Hfl Hfl' K K'. destruct (sub_keys _ _ _ _ _ _ _ K) as (-> & files & L & KK). destruct (sub_keys _ _ _ _ _ _ _ K') as (_ & files' & L' & KK').
        destruct (UF fl files L) as [HI _]. destruct (UF fl' files' L') as [HI' _]. destruct kd.
        * exact (proj1 (proj2 (OS b0 f l fl files f l fl' files' SP HI SP HI'))).
        * exact (proj1 (proj2 (OP b0 (m - 3)%Z f l fl files f l fl' files' SP HI KK SP HI' KK'))).
    - intros f f' r r' Hf Hf' K K'.
      destruct (folder_keys f b m r Hf (P f Hf) K) as (l & sub & files & HI & SP). destruct (folder_keys f' b m r' Hf' (P f' Hf') K') as (l' & sub' & files' & HI' & SP').
      destruct SP as [[SP M]|[SP M]], SP' as [[SP' M']|[SP' M']].
      + exact (proj1 (OS b f l sub files f' l' sub' files' SP HI SP' HI')).
      + pose proof (ON b f' l' sub' files' _ SP' HI' M'). lia.
      + pose proof (ON b f l sub files _ SP HI M). lia.
      + exact (proj1 (OP b (m - 3)%Z f l sub files f' l' sub' files' SP HI M SP' HI' M')).
  Qed.
End Proofs.
