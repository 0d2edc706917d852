(** Proofs about retrieving meters by key. *)
From Verif Require Import Base ItemModel ItemSpec.
Import List. Open Scope list_scope. Open Scope Z_scope.

(** ** Equality of values *)
Section Obj_ind.
Variable P : obj -> Prop.
Hypothesis HInt : forall n, P (Int n).
Hypothesis HBool : forall b, P (Bool b).
Hypothesis HStr : forall s, P (Str s).
Hypothesis HTup : forall l, Forall P l -> P (Tup l).
Hypothesis HLst : forall l, Forall P l -> P (Lst l).
Hypothesis HDict : forall d, Forall (fun p => P (snd p)) d -> P (Dict d).
Hypothesis HM : forall i b d, P i -> P b -> P d -> P (MeterID i b d).
Hypothesis HG : forall l, Forall P l -> P (GroupID l).
Hypothesis HThing : forall n, P (Thing n).
Fixpoint obj_ind2 (x : obj) : P x :=
  let fix all (l : list obj) : Forall P l := match l with [] => Forall_nil _ | y :: l' => Forall_cons _ (obj_ind2 y) (all l') end in
  let fix items (l : list (nat * obj)) : Forall (fun p => P (snd p)) l := match l with [] => Forall_nil _ | p :: l' => Forall_cons _ (obj_ind2 (snd p)) (items l') end in
  match x with
  | Int n => HInt n | Bool b => HBool b | Str s => HStr s | Tup l => HTup l (all l) | Lst l => HLst l (all l)
  | Dict d => HDict d (items d) | MeterID i b d => HM i b d (obj_ind2 i) (obj_ind2 b) (obj_ind2 d)
  | GroupID l => HG l (all l) | Thing n => HThing n
  end.
End Obj_ind.

Definition all_eq : list obj -> list obj -> bool :=
  fix all (l l' : list obj) {struct l} : bool :=
    match l, l' with
    | [], [] => true
    | a :: l1, a' :: l1' => eqb_raw a a' && all l1 l1'
    | _, _ => false
    end.
Lemma all_eq_iff l : Forall (fun x => forall y, eqb_raw x y = true <-> x = y) l -> forall l', all_eq l l' = true <-> l = l'.
Proof.
  induction 1 as [|x l Hx _ IH]; intros [|y l']; cbn [all_eq]; try (split; [discriminate|discriminate]).
  - split; reflexivity.
  - rewrite andb_true_iff, Hx, IH. split; [intros [-> ->]; reflexivity|intros [= -> ->]; split; reflexivity].
Qed.
Definition items_eq : list (nat * obj) -> list (nat * obj) -> bool :=
  fix items (l l' : list (nat * obj)) {struct l} : bool :=
    match l, l' with
    | [], [] => true
    | (k, a) :: l1, (k', a') :: l1' => Nat.eqb k k' && eqb_raw a a' && items l1 l1'
    | _, _ => false
    end.
Lemma items_eq_iff l : Forall (fun p => forall y, eqb_raw (snd p) y = true <-> snd p = y) l -> forall l', items_eq l l' = true <-> l = l'.
Proof.
  induction 1 as [|[k x] l Hx _ IH]; intros [|[k' y] l']; cbn [items_eq]; try (split; [discriminate|discriminate]).
  - split; reflexivity.
  - cbn [snd] in Hx. rewrite !andb_true_iff, Hx, IH, Nat.eqb_eq. split; [intros [[-> ->] ->]; reflexivity|intros [= -> -> ->]; repeat split; reflexivity].
Qed.
Lemma eqb_raw_iff x : forall y, eqb_raw x y = true <-> x = y.
Proof.
  induction x as [n|b|s|l IH|l IH|d IH|i b d Hi Hb Hd|l IH|n] using obj_ind2; intros y; destruct y; cbn [eqb_raw]; try (split; [discriminate|discriminate]).
  - rewrite Z.eqb_eq. split; congruence.
  - rewrite Bool.eqb_true_iff. split; congruence.
  - rewrite Nat.eqb_eq. split; congruence.
  - change (all_eq l l0 = true <-> Tup l = Tup l0). rewrite (all_eq_iff l IH). split; congruence.
  - change (all_eq l l0 = true <-> Lst l = Lst l0). rewrite (all_eq_iff l IH). split; congruence.
  - change (items_eq d d0 = true <-> Dict d = Dict d0). rewrite (items_eq_iff d IH). split; congruence.
  - rewrite !andb_true_iff, Hi, Hb, Hd. split; [intros [[-> ->] ->]; reflexivity|intros [= -> -> ->]; repeat split].
  - change (all_eq l l0 = true <-> GroupID l = GroupID l0). rewrite (all_eq_iff l IH). split; congruence.
  - rewrite Nat.eqb_eq. split; congruence.
Qed.
Lemma py_eq_iff x y : py_eq x y = true <-> Same x y.
Proof. apply eqb_raw_iff. Qed.
Lemma mem_iff x l : mem x l = true <-> Member x l.
Proof. unfold mem, Member. rewrite existsb_exists. split; intros (y & H & E); exists y; (split; [exact H|]); apply py_eq_iff; exact E. Qed.
Lemma Same_refl x : Same x x. Proof. reflexivity. Qed.
Lemma Same_sym x y : Same x y -> Same y x. Proof. unfold Same. congruence. Qed.
Lemma Same_trans x y z : Same x y -> Same y z -> Same x z. Proof. unfold Same. congruence. Qed.
Lemma Member_in x l : In x l -> Member x l. Proof. intros H. exists x. split; [exact H|reflexivity]. Qed.
Lemma Member_same x y l : Same x y -> Member y l -> Member x l.
Proof. intros E (z & H & E'). exists z. split; [exact H|]. eapply Same_trans; eassumption. Qed.
Lemma same_set_iff l l' : same_set l l' = true <-> SameSet l l'.
Proof.
  unfold same_set, SameSet. rewrite andb_true_iff, !forallb_forall. split.
  - intros [H1 H2] x. split; intros (y & I & E); apply (Member_same x y); try exact E; apply mem_iff; auto.
  - intros H. split; intros x I; apply mem_iff, H, Member_in, I.
Qed.
Lemma SameSet_refl l : SameSet l l. Proof. intros x. reflexivity. Qed.

(** ** First *)
Lemma find_first {A} (p : A -> bool) (P : A -> Prop) (l : list A) : (forall x, In x l -> p x = true <-> P x) ->
  (forall x, find p l = Some x <-> First P l x) /\ (find p l = None <-> forall x, In x l -> ~ P x).
Proof.
  induction l as [|y l IH]; intros H.
  - split; [|cbn; split; [intros _ x []|reflexivity]]. intros x. cbn. split; [discriminate|]. intros (l1 & l2 & E & _). destruct l1; discriminate.
  - assert (H' : forall x, In x l -> p x = true <-> P x) by (intros x I; apply H; right; exact I). destruct (IH H') as [IH1 IH2].
    cbn [find]. pose proof (H y (or_introl eq_refl)) as Hy. destruct (p y) eqn:E.
    * split; [|split; [discriminate|intros N; exfalso; apply (N y); [left; reflexivity|apply Hy; reflexivity]]].
      intros x. split.
      -- intros [= <-]. exists [], l. split; [reflexivity|]. split; [apply Hy; reflexivity|intros ? []].
      -- intros (l1 & l2 & E' & Px & N). destruct l1 as [|z l1]; injection E' as <- _; [reflexivity|]. exfalso. apply (N y); [left; reflexivity|apply Hy; reflexivity].
    * assert (Ny : ~ P y) by (intros Py; apply Hy in Py; discriminate). split.
      -- intros x. rewrite IH1. split.
         ++ intros (l1 & l2 & -> & Px & N). exists (y :: l1), l2. split; [reflexivity|]. split; [exact Px|]. intros z [<-|I]; auto.
         ++ intros (l1 & l2 & E' & Px & N). destruct l1 as [|z l1]; injection E' as -> ->; [contradiction|]. exists l1, l2. split; [reflexivity|]. split; [exact Px|]. intros w I. apply N. right. exact I.
      -- rewrite IH2. split; [intros N x [<-|I]; auto|intros N x I; apply N; right; exact I].
Qed.
Lemma First_in {A} (P : A -> Prop) l x : First P l x -> In x l /\ P x.
Proof. intros (l1 & l2 & -> & H & _). split; [|exact H]. apply in_or_app. right. left. reflexivity. Qed.
Lemma First_filter {A} (p : A -> bool) (P : A -> Prop) l x : (forall y, P y -> p y = true) -> First P (filter p l) x <-> First P l x.
Proof.
  intros H. induction l as [|y l IH].
  - cbn. split; intros (l1 & l2 & E & _); destruct l1; discriminate.
  - assert (step : ~ P y -> (First P (y :: l) x <-> First P l x)).
    { intros Ny. split.
      - intros (l1 & l2 & E & Px & N). destruct l1 as [|z l1]; injection E as -> ->; [contradiction|]. exists l1, l2. split; [reflexivity|]. split; [exact Px|]. intros w I. apply N. right. exact I.
      - intros (l1 & l2 & -> & Px & N). exists (y :: l1), l2. split; [reflexivity|]. split; [exact Px|]. intros z [<-|I]; auto. }
    cbn [filter]. destruct (p y) eqn:E.
    + split; intros F.
      * destruct F as (l1 & l2 & E' & Px & N). destruct l1 as [|z l1]; injection E' as -> E''.
        -- exists [], l. split; [reflexivity|]. split; [exact Px|intros ? []].
        -- assert (Ny : ~ P z) by (apply N; left; reflexivity). apply step; [exact Ny|]. apply IH. rewrite E''. exists l1, l2. split; [reflexivity|]. split; [exact Px|]. intros w I. apply N. right. exact I.
      * destruct F as (l1 & l2 & E' & Px & N). destruct l1 as [|z l1]; injection E' as -> E''.
        -- exists [], (filter p l). split; [reflexivity|]. split; [exact Px|intros ? []].
        -- assert (Ny : ~ P z) by (apply N; left; reflexivity). assert (F : First P l x) by (rewrite E''; exists l1, l2; split; [reflexivity|]; split; [exact Px|]; intros w I; apply N; right; exact I).
           apply IH in F. destruct F as (l1' & l2' & -> & Px' & N'). exists (z :: l1'), l2'. split; [reflexivity|]. split; [exact Px'|]. intros w [<-|I]; auto.
    + assert (Ny : ~ P y) by (intros Py; apply H in Py; congruence). rewrite (step Ny). exact IH.
Qed.

Section Proofs.
Context {app : Type}.
Variable matches : app -> list (nat * obj) -> res bool.
Variable order : list app -> list app.
Notation node := (node app).
Notation getitem := (getitem matches order).

Lemma first_such_spec (p : node -> bool) (P : node -> Prop) l : (forall x, In x l -> p x = true <-> P x) ->
  (forall r, first_such p l = Ok r <-> exists x, r = One x /\ First P l x) /\ (first_such p l = Err KeyError <-> forall x, In x l -> ~ P x) /\ (forall e, first_such p l = Err e -> e = KeyError).
Proof.
  intros H. destruct (find_first p P l H) as [F1 F2]. unfold first_such. destruct (find p l) as [x|] eqn:E.
  - split; [|split; [|discriminate]].
    + intros r. split; [intros [= <-]; exists x; split; [reflexivity|apply F1; reflexivity]|]. intros (y & -> & Fy). apply F1 in Fy. congruence.
    + split; [discriminate|]. intros N. apply F2 in N. discriminate.
  - split; [|split; [|intros e [= <-]; reflexivity]].
    + intros r. split; [discriminate|]. intros (y & _ & Fy). apply F1 in Fy. discriminate.
    + split; [intros _; apply F2; reflexivity|reflexivity].
Qed.

(** ** By identifier *)
Lemma by_id ms i b d : (forall l, i <> Tup l) -> ~ Same i (Int 0) ->
  (forall r, getitem ms (MeterID i b d) = Ok r <-> exists x, r = One x /\ First (fun x => Same (ident x) (MeterID i b d)) ms x) /\
  (getitem ms (MeterID i b d) = Err KeyError <-> forall x, In x ms -> ~ Same (ident x) (MeterID i b d)) /\
  (forall e, getitem ms (MeterID i b d) = Err e -> e = KeyError).
Proof.
  intros NT N0. assert (E0 : py_eq i (Int 0) = false) by (destruct (py_eq i (Int 0)) eqn:E; [exfalso; apply N0, py_eq_iff, E|reflexivity]).
  cbn [ItemModel.getitem]. assert (E : get_id ms i b d = first_such (fun x => py_eq (ident x) (MeterID i b d)) ms) by (unfold get_id; destruct i; try (rewrite E0; reflexivity); exfalso; eapply NT; reflexivity).
  rewrite E. apply first_such_spec. intros x _. apply py_eq_iff.
Qed.
Lemma same_id_meter (x : node) i b d : Same (ident x) (MeterID i b d) -> exists i' b' d' s apps, x = Meter i' b' d' s apps /\ Same i' i /\ Same b' b /\ Same d' d.
Proof. destruct x as [i' b' d' s apps|l]; unfold Same; cbn; [|discriminate]. intros [= ? ? ?]. repeat eexists; assumption. Qed.

Lemma group_test (x : node) l : is_group x = true -> same_set (map ident (members x)) l = true <-> group_of_ids l x.
Proof.
  destruct x as [|ms]; [discriminate|]. intros _. cbn [members]. rewrite same_set_iff. unfold group_of_ids. split; [intros H; exists ms; split; [reflexivity|exact H]|].
  intros (ms' & E & H). injection E as <-. exact H.
Qed.
Lemma group_of_is_group l (x : node) : group_of_ids l x -> is_group x = true.
Proof. intros (ms & -> & _). reflexivity. Qed.
Lemma by_ids ms l :
  (forall r, getitem ms (GroupID l) = Ok r <-> exists g, r = One g /\ First (group_of_ids l) ms g) /\
  (getitem ms (GroupID l) = Err KeyError <-> forall g, In g ms -> ~ group_of_ids l g) /\
  (forall e, getitem ms (GroupID l) = Err e -> e = KeyError).
Proof.
  cbn [ItemModel.getitem]. unfold get_group.
  destruct (first_such_spec (fun g => same_set (map ident (members g)) l) (group_of_ids l) (filter is_group ms)) as (H1 & H2 & H3).
  { intros x I. apply filter_In in I. apply group_test, I. }
  split; [|split; [|exact H3]].
  - intros r. rewrite H1. split; intros (g & E & F); exists g; (split; [exact E|]); apply (First_filter is_group (group_of_ids l) ms g (group_of_is_group l)); exact F.
  - rewrite H2. split; intros N g I.
    + intros G. apply (N g); [apply filter_In; split; [exact I|eapply group_of_is_group; exact G]|exact G].
    + apply N. apply filter_In in I. apply I.
Qed.
Lemma by_list ms l : (forall x, In x l -> is_tuple x = true) -> getitem ms (Lst l) = getitem ms (GroupID l).
Proof.
  intros H. cbn [ItemModel.getitem]. unfold get_list, get_group. rewrite (proj2 (forallb_forall _ _) H). clear H. unfold first_such. f_equal. 
  induction ms as [|[i b d s a|ms'] ms IH]; [reflexivity| |].
  - cbn [find filter is_group]. exact IH.
  - cbn [find filter is_group members]. destruct (same_set (map ident ms') l); [reflexivity|exact IH].
Qed.

(** ** By instances *)
Section Node_ind.
Variable P : node -> Prop.
Hypothesis HM : forall i b d s a, P (Meter i b d s a).
Hypothesis HG : forall ms, Forall P ms -> P (Grp ms).
Fixpoint node_ind2 (x : node) : P x :=
  let fix all (l : list node) : Forall P l := match l with [] => Forall_nil _ | y :: l' => Forall_cons _ (node_ind2 y) (all l') end in
  match x with Meter i b d s a => HM i b d s a | Grp ms => HG ms (all ms) end.
End Node_ind.

Lemma simplest_one x l : is_one x (simplest l) = true <-> l <> [] /\ Forall (fun p => is_one x p = true) l.
Proof.
  destruct l as [|p l]; [cbn; split; [discriminate|intros [H _]; contradiction]|].
  assert (sym : forall a b, is_one a b = true -> exists y, b = OnePlace y /\ Same a y) by (intros a [|y|]; cbn; try discriminate; intros E; exists y; split; [reflexivity|apply py_eq_iff, E]).
  assert (D : p :: l <> []) by discriminate. destruct p as [|y|]; cbn [simplest].
  - split; [destruct (forallb _ l); discriminate|]. intros [_ F]. apply Forall_inv in F. discriminate.
  - destruct (forallb (is_one y) l) eqn:E.
    + cbn [is_one]. split.
      * intros E'. split; [exact D|]. constructor; [exact E'|]. apply Forall_forall. intros q I. rewrite forallb_forall in E. destruct (sym _ _ (E q I)) as (z & -> & S). cbn. apply py_eq_iff. apply py_eq_iff in E'. eapply Same_trans; eassumption.
      * intros [_ F]. apply Forall_inv in F. exact F.
    + split; [discriminate|]. intros [_ F]. apply Forall_cons_iff in F. destruct F as [F1 F2]. exfalso. assert (Et : forallb (is_one y) l = true); [|congruence].
      apply forallb_forall. intros q I. rewrite Forall_forall in F2. destruct (sym _ _ (F2 q I)) as (z & -> & S). cbn in F1 |- *. apply py_eq_iff. apply py_eq_iff in F1. eapply Same_trans; [apply Same_sym; exact F1|exact S].
  - split; [discriminate|]. intros [_ F]. apply Forall_inv in F. discriminate.
Qed.
Lemma within_building_iff b x : is_one b (building x) = true <-> within_building b (app := app) x.
Proof.
  induction x as [i b' d s a|ms IH] using node_ind2; cbn [building].
  - cbn [is_one]. rewrite py_eq_iff. split; [constructor; assumption|]. intros H. inversion H; assumption.
  - rewrite simplest_one. rewrite Forall_forall in IH. split.
    + intros [N F]. constructor; [intros ->; apply N; reflexivity|]. apply Forall_forall. intros y I. apply IH; [exact I|]. rewrite Forall_forall in F. apply F. apply in_map. exact I.
    + intros H. inversion H as [|ms' N F]; subst. split; [destruct ms; [contradiction|discriminate]|]. apply Forall_forall. intros p I. apply in_map_iff in I. destruct I as (y & <- & I). apply IH; [exact I|]. rewrite Forall_forall in F. apply F. exact I.
Qed.
Lemma within_dataset_iff b x : is_one b (dataset x) = true <-> within_dataset b (app := app) x.
Proof.
  induction x as [i b' d s a|ms IH] using node_ind2; cbn [dataset].
  - cbn [is_one]. rewrite py_eq_iff. split; [constructor; assumption|]. intros H. inversion H; assumption.
  - rewrite simplest_one. rewrite Forall_forall in IH. split.
    + intros [N F]. constructor; [intros ->; apply N; reflexivity|]. apply Forall_forall. intros y I. apply IH; [exact I|]. rewrite Forall_forall in F. apply F. apply in_map. exact I.
    + intros H. inversion H as [|ms' N F]; subst. split; [destruct ms; [contradiction|discriminate]|]. apply Forall_forall. intros p I. apply in_map_iff in I. destruct I as (y & <- & I). apply IH; [exact I|]. rewrite Forall_forall in F. apply F. exact I.
Qed.

Lemma by_instances ms l b d :
  (forall r, getitem ms (MeterID (Tup l) b d) = Ok r <-> exists x, r = One x /\
     (First (group_of_instances l b d) ms x \/
      ((forall g, In g ms -> ~ group_of_instances l b d g) /\ First (fun x => Same (ident x) (MeterID (Tup l) b d)) ms x))) /\
  (getitem ms (MeterID (Tup l) b d) = Err KeyError <-> forall x, In x ms -> ~ group_of_instances l b d x /\ ~ Same (ident x) (MeterID (Tup l) b d)) /\
  (forall e, getitem ms (MeterID (Tup l) b d) = Err e -> e = KeyError).
Proof.
  cbn [ItemModel.getitem]. unfold get_id.
  set (p := fun g : node => same_set (match instance g with Tup k => k | _ => [] end) l && is_one b (building g) && is_one d (dataset g)).
  assert (G : forall g : node, group_of_instances l b d g -> is_group g = true) by (intros g (m & -> & _); reflexivity).
  assert (T : forall g, In g (filter is_group ms) -> p g = true <-> group_of_instances l b d g).
  { intros g I. apply filter_In in I. destruct I as [_ I]. destruct g as [|m]; [discriminate|]. unfold p, group_of_instances. rewrite !andb_true_iff, within_building_iff, within_dataset_iff. cbn [instance]. rewrite same_set_iff. split.
    - intros [[A B] C]. exists m. repeat split; try assumption; apply A.
    - intros (m' & E & A & B & C). injection E as <-. repeat split; try assumption; apply A. }
  destruct (find_first p _ _ T) as [F1 F2].
  destruct (first_such_spec (fun x => py_eq (ident x) (MeterID (Tup l) b d)) (fun x => Same (ident x) (MeterID (Tup l) b d)) ms (fun x _ => py_eq_iff _ _)) as (H1 & H2 & H3).
  destruct (find p (filter is_group ms)) as [g|] eqn:E.
  - pose proof (proj1 (F1 g) eq_refl) as Fg. apply (First_filter is_group _ ms g G) in Fg. destruct (First_in _ _ _ Fg) as [Ig Pg]. split; [|split; [|discriminate]].
    + intros r. split; [intros [= <-]; exists g; split; [reflexivity|left; exact Fg]|].
      intros (x & -> & [F|[N _]]).
      * apply (First_filter is_group _ ms x G) in F. apply F1 in F. congruence.
      * exfalso. apply (N g); assumption.
    + split; [discriminate|]. intros N. exfalso. destruct (N g Ig) as [N' _]. exact (N' Pg).
  - assert (N : forall g, In g ms -> ~ group_of_instances l b d g).
    { intros g I Pg. apply (proj1 F2 eq_refl g); [|exact Pg]. apply filter_In. split; [exact I|apply G; exact Pg]. }
    split; [|split; [|exact H3]].
    + intros r. rewrite H1. split; intros (x & -> & F); exists x; (split; [reflexivity|]).
      * right. split; [exact N|exact F].
      * destruct F as [F|[_ F]]; [|exact F]. apply First_in in F. exfalso. apply (N x); apply F.
    + rewrite H2. split; [intros M x I; split; [apply N, I|apply M, I]|intros M x I; apply M, I].
Qed.

(** ** Mains *)
Lemma touches_iff b d x : in_place b d x = true <-> touches (app := app) b d x.
Proof.
  induction x as [i b' d' s a|ms IH] using node_ind2; cbn [in_place].
  - rewrite andb_true_iff, !py_eq_iff. unfold touches. cbn [leaves]. split.
    + intros H. exists (Meter i b' d' s a). split; [left; reflexivity|exact H].
    + intros (m & [<-|[]] & H). exact H.
  - rewrite existsb_exists. rewrite Forall_forall in IH. unfold touches in *. cbn [leaves]. split.
    + intros (y & I & E). apply IH in E; [|exact I]. destruct E as (m & Im & Hm). exists m. split; [|exact Hm]. apply in_concat. exists (leaves y). split; [apply in_map; exact I|exact Im].
    + intros (m & Im & Hm). apply in_concat in Im. destruct Im as (k & Ik & Im). apply in_map_iff in Ik. destruct Ik as (y & <- & I). exists y. split; [exact I|]. apply IH; [exact I|]. exists m. split; assumption.
Qed.

Lemma building_touched b d x : touches (app := app) b d x -> building x <> NoPlace.
Proof.
  induction x as [i b' d' s a|ms IH] using node_ind2; [discriminate|].
  intros (m & Im & Hm). cbn [leaves] in Im. apply in_concat in Im. destruct Im as (k & Ik & Im). apply in_map_iff in Ik. destruct Ik as (y & <- & I).
  rewrite Forall_forall in IH. assert (Ny : building y <> NoPlace) by (apply IH; [exact I|]; exists m; split; assumption).
  cbn [building]. destruct ms as [|z ms]; [destruct I|]. cbn [map simplest]. destruct (building z) as [|x|] eqn:Ez; [|destruct (forallb _ _); discriminate|discriminate].
  destruct I as [<-|I]; [contradiction|]. destruct (forallb _ (map building ms)) eqn:E; [|discriminate]. rewrite forallb_forall in E. specialize (E (building y) (in_map _ _ _ I)). destruct (building y); [contradiction|discriminate|discriminate].
Qed.
Lemma building_touched_one b d x y : touches (app := app) b d x -> building x = OnePlace y -> Same b y.
Proof.
  revert y. induction x as [i b' d' s a|ms IH] using node_ind2; intros y T E.
  - cbn in E. injection E as <-. destruct T as (m & [<-|[]] & H & _). apply Same_sym. exact H.
  - destruct T as (m & Im & Hm). cbn [leaves] in Im. apply in_concat in Im. destruct Im as (k & Ik & Im). apply in_map_iff in Ik. destruct Ik as (z & <- & I).
    rewrite Forall_forall in IH. assert (Tz : touches b d z) by (exists m; split; assumption).
    assert (O : is_one y (building (Grp ms)) = true) by (rewrite E; cbn; apply py_eq_iff, Same_refl). cbn [building] in O. apply simplest_one in O. destruct O as [_ F]. rewrite Forall_forall in F. specialize (F (building z) (in_map _ _ _ I)).
    destruct (building z) as [|w|] eqn:Ez; try discriminate. cbn in F. apply py_eq_iff in F. apply Same_trans with w; [apply (IH z I w Tz Ez)|apply Same_sym; exact F].
Qed.
Lemma sel_building b d sel : sel <> [] -> Forall (touches (app := app) b d) sel ->
  (simplest (map building sel) = Many <-> ~ Forall (within_building b) sel).
Proof.
  intros N T. rewrite Forall_forall in T. split.
  - intros E F. assert (O : is_one b (simplest (map building sel)) = true); [|rewrite E in O; discriminate].
    apply simplest_one. split; [destruct sel; [contradiction|discriminate]|]. rewrite Forall_forall in F |- *. intros p I. apply in_map_iff in I. destruct I as (x & <- & I). apply within_building_iff, F, I.
  - intros NF. destruct sel as [|x sel]; [contradiction|]. cbn [map simplest]. destruct (building x) as [|y|] eqn:Ex; [exfalso; apply (building_touched b d x); [apply T; left; reflexivity|exact Ex]| |reflexivity].
    destruct (forallb (is_one y) (map building sel)) eqn:E; [|reflexivity]. exfalso. apply NF. assert (S : Same b y) by (apply (building_touched_one b d x y); [apply T; left; reflexivity|exact Ex]).
    apply Forall_forall. intros z I. apply within_building_iff. destruct I as [<-|I].
    + rewrite Ex. cbn. apply py_eq_iff. exact S.
    + rewrite forallb_forall in E. specialize (E (building z) (in_map _ _ _ I)). destruct (building z); try discriminate. cbn in E |- *. apply py_eq_iff. apply py_eq_iff in E. eapply Same_trans; eassumption.
Qed.
Lemma filtered_filter {A} (p : A -> bool) (P : A -> Prop) l l' : (forall x, p x = true <-> P x) -> Filtered P l l' -> filter p l = l'.
Proof.
  intros H F. induction F as [|x l l' Px F IH|x l l' Nx F IH]; [reflexivity| |]; cbn [filter].
  - apply H in Px. rewrite Px, IH. reflexivity.
  - destruct (p x) eqn:E; [exfalso; apply Nx, H, E|exact IH].
Qed.
Lemma filtered_forall {A} (P : A -> Prop) l l' : Filtered P l l' -> Forall P l'.
Proof. induction 1; [constructor|constructor; assumption|assumption]. Qed.
Lemma is_site_iff x : is_site x = true <-> has_site (app := app) x.
Proof.
  induction x as [i b' d' s a|ms IH] using node_ind2; cbn [is_site].
  - unfold has_site. cbn [leaves]. split.
    + intros ->. exists i, b', d', a. left. reflexivity.
    + intros (i' & b & d & a' & [E|[]]). congruence.
  - rewrite existsb_exists. rewrite Forall_forall in IH. unfold has_site in *. cbn [leaves]. split.
    + intros (y & I & E). apply IH in E; [|exact I]. destruct E as (i & b & d & a & Im). exists i, b, d, a. apply in_concat. exists (leaves y). split; [apply in_map; exact I|exact Im].
    + intros (i & b & d & a & Im). apply in_concat in Im. destruct Im as (k & Ik & Im). apply in_map_iff in Ik. destruct Ik as (y & <- & I). exists y. split; [exact I|]. apply IH; [exact I|]. exists i, b, d, a. exact Im.
Qed.
Lemma by_zero ms i b d sel site : Same i (Int 0) -> Filtered (touches b d) ms sel -> Filtered has_site sel site ->
  (sel = [] -> getitem ms (MeterID i b d) = Err KeyError) /\
  (sel <> [] -> ~ Forall (within_building b) sel -> getitem ms (MeterID i b d) = Err RuntimeError) /\
  (sel <> [] -> Forall (within_building b) sel ->
     getitem ms (MeterID i b d) = Ok (match site with [] => Nothing | [x] => One x | _ => New (map One site) end)).
Proof.
  intros S0 F1 F2. pose proof (filtered_filter _ _ _ _ (touches_iff b d) F1) as E1. pose proof (filtered_filter _ _ _ _ is_site_iff F2) as E2. pose proof (filtered_forall _ _ _ F1) as FT.
  assert (E : getitem ms (MeterID i b d) = mains_of ms b d).
  { pose proof (proj2 (py_eq_iff _ _) S0) as P0. cbn [ItemModel.getitem]. unfold get_id. destruct i; try (rewrite P0; reflexivity). discriminate. }
  rewrite E. unfold mains_of. rewrite E1. split; [intros ->; reflexivity|]. split; intros N B.
  - pose proof (proj2 (sel_building b d sel N FT) B) as M. destruct sel as [|x sel]; [contradiction|]. rewrite M. reflexivity.
  - assert (M : simplest (map building sel) <> Many) by (intros M; apply (sel_building b d sel N FT) in M; contradiction).
    destruct sel as [|x sel]; [contradiction|]. rewrite E2. destruct (simplest (map building (x :: sel))); [| |contradiction]; destruct site as [|y [|z site]]; reflexivity.
Qed.
End Proofs.
