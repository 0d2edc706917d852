(** Proofs for TableSpec: tables of the members of a group. *)
From Coq Require Import Permutation Sorted Lia.
From Verif Require Import Base PipelineModel ColumnsModel TopModel CorrModel TopSpec CorrSpec TableModel TableSpec.
Import List. Open Scope nat_scope.

Section P.
Context {M I V : Type} (I_dec : forall x y : I, {x = y} + {x <> y}) (ident : M -> I).
Local Notation item := (item I_dec).
Local Notation assign := (assign I_dec).
Local Notation get_cell := (get_cell (V:=V) I_dec).
Local Notation set_cell := (set_cell (V:=V) I_dec).

Lemma item_entry {A} (l : list (I * A)) i x : item l i = Ok x <-> entry l i x.
Proof.
  induction l as [|[k y] l IH]; cbn [TableModel.item].
  - split; [discriminate|inversion 1].
  - destruct (I_dec k i) as [->|N].
    + split; [intros [= ->]; constructor|inversion 1; subst; [reflexivity|congruence]].
    + rewrite IH. split; [intros K; constructor; assumption|inversion 1; subst; [congruence|assumption]].
Qed.
Lemma item_same {A} (l : list (I * A)) i x : item (assign l i x) i = Ok x.
Proof.
  induction l as [|[k y] l IH]; cbn [TableModel.assign TableModel.item].
  - destruct (I_dec i i); [reflexivity|congruence].
  - destruct (I_dec k i) as [->|N]; cbn [TableModel.item]; [destruct (I_dec i i); [reflexivity|congruence]|].
    destruct (I_dec k i); [congruence|exact IH].
Qed.
Lemma item_other {A} (l : list (I * A)) i j x : i <> j -> item (assign l i x) j = item l j.
Proof.
  intros N. induction l as [|[k y] l IH]; cbn [TableModel.assign TableModel.item].
  - destruct (I_dec i j); [congruence|reflexivity].
  - destruct (I_dec k i) as [->|N']; cbn [TableModel.item].
    + destruct (I_dec i j); [congruence|reflexivity].
    + destruct (I_dec k j); [reflexivity|exact IH].
Qed.
Lemma assign_labels {A} (l : list (I * A)) i x : In i (map fst l) -> map fst (assign l i x) = map fst l.
Proof.
  induction l as [|[k y] l IH]; cbn [map TableModel.assign]; [intros []|]. cbn [fst]. intros K.
  destruct (I_dec k i) as [->|N]; [reflexivity|]. cbn [map fst]. f_equal. apply IH. destruct K as [K|K]; [congruence|exact K].
Qed.
Lemma item_in {A} (l : list (I * A)) i : In i (map fst l) -> exists x, item l i = Ok x /\ In (i, x) l.
Proof.
  induction l as [|[k y] l IH]; cbn [map TableModel.item]; [intros []|]. cbn [fst]. intros K.
  destruct (I_dec k i) as [->|N]; [exists y; split; [reflexivity|left; reflexivity]|].
  destruct K as [K|K]; [congruence|]. destruct (IH K) as [x [E J]]. exists x. split; [exact E|right; exact J].
Qed.
Lemma assign_forall {A} (P : I * A -> Prop) (l : list (I * A)) i x : Forall P l -> P (i, x) -> Forall P (assign l i x).
Proof.
  intros F Px. induction F as [|[k y] l Py F IH]; cbn [TableModel.assign]; [repeat constructor; exact Px|].
  destruct (I_dec k i) as [->|N]; constructor; assumption.
Qed.

Lemma blank_square ids : square ids (blank (I:=I) (V:=V) ids).
Proof.
  unfold square, blank. split; [rewrite map_map; cbn; apply map_id|]. rewrite Forall_map. apply Forall_forall. intros i _. cbn [snd].
  unfold blank_series. rewrite map_map. cbn. apply map_id.
Qed.

Lemma set_cell_ok ids (fr : frame (V:=V)) i j v : square ids fr -> In i ids -> In j ids ->
  exists fr', set_cell fr i j v = Ok fr' /\ square ids fr' /\ get_cell fr' i j = Ok v /\
    forall i' j', i' <> i \/ j' <> j -> get_cell fr' i' j' = get_cell fr i' j'.
Proof.
  intros [Hl Hc] Hi Hj. unfold TableModel.set_cell, TableModel.get_cell. unfold frame, series in *.
  destruct (item_in fr i ltac:(rewrite Hl; exact Hi)) as [c [Ec Ic]]. rewrite Ec. cbn [bind].
  pose proof (proj1 (Forall_forall _ _) Hc _ Ic) as Lc. cbn [snd] in Lc.
  eexists. split; [reflexivity|]. split.
  - split; [rewrite assign_labels; [exact Hl|rewrite Hl; exact Hi]|]. apply assign_forall; [exact Hc|]. cbn [snd].
    rewrite assign_labels; [exact Lc|rewrite Lc; exact Hj].
  - split; [rewrite item_same; cbn [bind]; apply item_same|]. intros i' j' D.
    destruct (I_dec i i') as [<-|N].
    + rewrite item_same, Ec. cbn [bind]. apply item_other. destruct D as [D|D]; congruence.
    + rewrite item_other by exact N. reflexivity.
Qed.

Lemma nth_inj (ms : list M) a b ma mb : NoDup (map ident ms) -> at_place ms a ma -> at_place ms b mb -> ident ma = ident mb -> a = b.
Proof.
  unfold at_place. intros N Ha Hb E. apply (proj1 (NoDup_nth_error _) N).
  - rewrite map_length. apply nth_error_Some. rewrite Ha. discriminate.
  - rewrite !nth_error_map, Ha, Hb. cbn. f_equal. exact E.
Qed.
Lemma at_place_in (ms : list M) a ma : at_place ms a ma -> In (ident ma) (map ident ms).
Proof. intros H. apply in_map. exact (nth_error_In _ _ H). Qed.

Section W.
Context (method : M -> M -> res V) (ms : list M) (HN : NoDup (map ident ms)).

(** The cell of places [a, b] has its value. *)
Definition filled (fr : frame (V:=V)) (a b : nat) : Prop := forall ma mb, at_place ms a ma -> at_place ms b mb ->
  exists v, (if b <? a then method mb ma else method ma mb) = Ok v /\ get_cell fr (ident ma) (ident mb) = Ok (Some v).
Definition upto (i j : nat) (fr : frame (V:=V)) : Prop :=
  square (map ident ms) fr /\ forall a b, before a b i j -> filled fr a b.

Lemma step_ok i j mi mj fr : upto i j fr -> at_place ms i mi -> at_place ms j mj ->
  match pair_step I_dec ident method i mi fr (j, mj) with
  | Ok fr' => upto i (S j) fr'
  | Err e => i <= j /\ method mi mj = Err e
  end.
Proof.
  intros [Hs Hf] Hi Hj. cbn [pair_step].
  assert (K : forall v w, (if j <? i then method mj mi else method mi mj) = Ok w -> v = Some w ->
    match set_cell fr (ident mi) (ident mj) v with Ok fr' => upto i (S j) fr' | Err e => i <= j /\ method mi mj = Err e end).
  { intros v w Ew Ev. subst v.
    destruct (set_cell_ok _ fr (ident mi) (ident mj) (Some w) Hs (at_place_in _ _ _ Hi) (at_place_in _ _ _ Hj)) as (fr' & -> & Hs' & Eg & Eo).
    split; [exact Hs'|]. intros a b Hb.
    destruct (Nat.eq_dec a i) as [Ea|Na]; [destruct (Nat.eq_dec b j) as [Eb|Nb]|].
    - subst a b. intros ma mb Ha Hb'. unfold at_place in *. rewrite Ha in Hi. injection Hi as ->. rewrite Hb' in Hj. injection Hj as ->.
      exists w. split; [exact Ew|exact Eg].
    - intros ma mb Ha Hb'. destruct (Hf a b ltac:(unfold before in *; lia) ma mb Ha Hb') as [v [E1 E2]]. exists v. split; [exact E1|].
      rewrite Eo; [exact E2|]. right. intros E. apply Nb. exact (nth_inj ms b j mb mj HN Hb' Hj E).
    - intros ma mb Ha Hb'. destruct (Hf a b ltac:(unfold before in *; lia) ma mb Ha Hb') as [v [E1 E2]]. exists v. split; [exact E1|].
      rewrite Eo; [exact E2|]. left. intros E. apply Na. exact (nth_inj ms a i ma mi HN Ha Hi E). }
  destruct (j <? i) eqn:L.
  - apply Nat.ltb_lt in L. destruct (Hf j i ltac:(left; exact L) mj mi Hj Hi) as [v [E1 E2]].
    rewrite E2. cbn [bind]. apply (K _ v); [|reflexivity]. rewrite (proj2 (Nat.ltb_ge i j)) in E1 by lia. exact E1.
  - apply Nat.ltb_ge in L. destruct (method mi mj) as [w|e] eqn:E; cbn [bind]; [|split; [exact L|reflexivity]].
    apply (K _ w); reflexivity.
Qed.

(** The first pair for which the method raises. *)
Definition fails_first (e : exn) : Prop := exists i j mi mj, i <= j /\ at_place ms i mi /\ at_place ms j mj /\ method mi mj = Err e /\
  forall a b ma mb, a <= b -> at_place ms a ma -> at_place ms b mb -> before a b i j -> exists v, method ma mb = Ok v.
Lemma upto_fails i j mi mj e fr : upto i j fr -> i <= j -> at_place ms i mi -> at_place ms j mj -> method mi mj = Err e -> fails_first e.
Proof.
  intros [_ Hf] L Hi Hj E. exists i, j, mi, mj. repeat (split; [assumption|]). intros a b ma mb Lab Ha Hb B.
  destruct (Hf a b B ma mb Ha Hb) as [v [Ev _]]. exists v. rewrite (proj2 (Nat.ltb_ge b a)) in Ev by exact Lab. exact Ev.
Qed.

Lemma inner_ok i mi l2 : at_place ms i mi -> forall l1 fr, ms = l1 ++ l2 -> upto i (length l1) fr ->
  match foldM (pair_step I_dec ident method i mi) (combine (seq (length l1) (length l2)) l2) fr with
  | Ok fr' => upto i (length ms) fr'
  | Err e => fails_first e
  end.
Proof.
  intros Hi. induction l2 as [|m l2 IH]; intros l1 fr E U.
  - cbn. rewrite E, app_nil_r. exact U.
  - cbn [length seq combine foldM].
    assert (Hm : at_place ms (length l1) m) by (unfold at_place; rewrite E, nth_error_app2, Nat.sub_diag by lia; reflexivity).
    pose proof (step_ok i (length l1) mi m fr U Hi Hm) as K.
    destruct (pair_step I_dec ident method i mi fr (length l1, m)) as [fr'|e]; cbn [bind].
    + specialize (IH (l1 ++ [m]) fr'). rewrite app_length in IH. cbn [length] in IH. rewrite Nat.add_1_r in IH. apply IH; [rewrite <- app_assoc; exact E|exact K].
    + destruct K as [L Ee]. exact (upto_fails _ _ _ _ _ _ U L Hi Hm Ee).
Qed.
Lemma upto_next i fr : upto i (length ms) fr -> upto (S i) 0 fr.
Proof.
  intros [Hs Hf]. split; [exact Hs|]. intros a b B ma mb Ha Hb. apply Hf; try assumption.
  assert (b < length ms) by (apply nth_error_Some; unfold at_place in Hb; rewrite Hb; discriminate). unfold before in *. lia.
Qed.
Lemma outer_ok l2 : forall l1 fr, ms = l1 ++ l2 -> upto (length l1) 0 fr ->
  match foldM (fun fr im => foldM (pair_step I_dec ident method (fst im) (snd im)) (enum ms) fr) (combine (seq (length l1) (length l2)) l2) fr with
  | Ok fr' => upto (length ms) 0 fr'
  | Err e => fails_first e
  end.
Proof.
  induction l2 as [|m l2 IH]; intros l1 fr E U.
  - cbn. rewrite E, app_nil_r. exact U.
  - cbn [length seq combine foldM fst snd].
    assert (Hm : at_place ms (length l1) m) by (unfold at_place; rewrite E, nth_error_app2, Nat.sub_diag by lia; reflexivity).
    pose proof (inner_ok (length l1) m ms Hm [] fr eq_refl U) as K. cbn [length] in K. fold (enum ms) in K.
    destruct (foldM _ (enum ms) fr) as [fr'|e]; cbn [bind]; [|exact K].
    specialize (IH (l1 ++ [m]) fr'). rewrite app_length in IH. cbn [length] in IH. rewrite Nat.add_1_r in IH.
    apply IH; [rewrite <- app_assoc; exact E|apply upto_next; exact K].
Qed.
Lemma pairwise_all : match pairwise I_dec ident method ms with Ok fr => upto (length ms) 0 fr | Err e => fails_first e end.
Proof.
  unfold pairwise. apply (outer_ok ms [] (blank (map ident ms)) eq_refl). split; [apply blank_square|].
  intros a b B. unfold before in B. cbn in B. lia.
Qed.
Lemma get_cell_cell (fr : frame (V:=V)) i j v : get_cell fr i j = Ok (Some v) <-> cell fr i j v.
Proof.
  unfold TableModel.get_cell, cell. unfold frame, series in *. split.
  - destruct (item fr i) as [c|e] eqn:E; cbn [bind]; [|discriminate]. intros K. exists c. split; apply item_entry; assumption.
  - intros (c & E & K). apply item_entry in E. apply item_entry in K. rewrite E. exact K.
Qed.
End W.

Lemma pairwise_value (method : M -> M -> res V) ms fr : NoDup (map ident ms) -> pairwise I_dec ident method ms = Ok fr ->
  square (map ident ms) fr /\ forall i j a b, i <= j -> at_place ms i a -> at_place ms j b ->
    exists v, method a b = Ok v /\ cell fr (ident a) (ident b) v /\ cell fr (ident b) (ident a) v.
Proof.
  intros N E. pose proof (pairwise_all method ms N) as K. rewrite E in K. destruct K as [Hs Hf]. split; [exact Hs|].
  intros i j a b L Ha Hb.
  assert (Li : i < length ms) by (apply nth_error_Some; unfold at_place in Ha; rewrite Ha; discriminate).
  assert (Lj : j < length ms) by (apply nth_error_Some; unfold at_place in Hb; rewrite Hb; discriminate).
  destruct (Hf i j ltac:(left; exact Li) a b Ha Hb) as [v [E1 E2]]. rewrite (proj2 (Nat.ltb_ge j i)) in E1 by exact L.
  exists v. split; [exact E1|]. split; [apply get_cell_cell; exact E2|].
  destruct (Hf j i ltac:(left; exact Lj) b a Hb Ha) as [w [F1 F2]]. apply get_cell_cell. rewrite F2. f_equal. f_equal.
  destruct (i <? j) eqn:B; [congruence|]. apply Nat.ltb_ge in B. assert (i = j) by lia. subst j.
  unfold at_place in *. congruence.
Qed.
Lemma cell_unique (fr : list (I * list (I * option V))) i j v w : cell fr i j v -> cell fr i j w -> v = w.
Proof.
  intros K K'. apply get_cell_cell in K. apply get_cell_cell in K'. congruence.
Qed.

Lemma pairwise_fails (method : M -> M -> res V) ms e : NoDup (map ident ms) -> (pairwise I_dec ident method ms = Err e <-> fails_first method ms e).
Proof.
  intros N. pose proof (pairwise_all method ms N) as K. split.
  - intros E. rewrite E in K. exact K.
  - intros (i & j & a & b & L & Ha & Hb & Ee & Hf). destruct (pairwise I_dec ident method ms) as [fr|e'] eqn:E.
    + destruct (pairwise_value method ms fr N E) as [_ Hv]. destruct (Hv i j a b L Ha Hb) as [v [Ev _]]. congruence.
    + f_equal. destruct K as (i' & j' & a' & b' & L' & Ha' & Hb' & Ee' & Hf').
      assert (D : before i j i' j' \/ before i' j' i j \/ (i = i' /\ j = j')) by (unfold before; lia).
      destruct D as [D|[D|[D1 D2]]].
      * destruct (Hf' i j a b L Ha Hb D). congruence.
      * destruct (Hf i' j' a' b' L' Ha' Hb' D). congruence.
      * subst. unfold at_place in *. congruence.
Qed.

Lemma entry_label {A} (l : list (I * A)) i x : entry l i x -> In i (map fst l) /\ In (i, x) l.
Proof. induction 1 as [|k y i x l N H [IH IH']]; cbn [map fst]; split; try (left; reflexivity); right; assumption. Qed.
Lemma in_place (ms : list M) a : In a ms -> exists i, at_place ms i a.
Proof. apply In_nth_error. Qed.
Lemma pairwise_symmetric (method : M -> M -> res V) ms fr : NoDup (map ident ms) -> symmetric ms method -> pairwise I_dec ident method ms = Ok fr ->
  forall i j v, cell fr i j v <-> exists a b, In a ms /\ In b ms /\ ident a = i /\ ident b = j /\ method a b = Ok v.
Proof.
  intros N S E. destruct (pairwise_value method ms fr N E) as [[Hl Hc] Hv].
  assert (K : forall a b, In a ms -> In b ms -> exists v, method a b = Ok v /\ cell fr (ident a) (ident b) v).
  { intros a b Ha Hb. destruct (in_place ms a Ha) as [i Hi]. destruct (in_place ms b Hb) as [j Hj].
    destruct (le_lt_dec i j) as [L|L].
    - destruct (Hv i j a b L Hi Hj) as (v & E1 & E2 & _). exists v. split; assumption.
    - destruct (Hv j i b a ltac:(lia) Hj Hi) as (v & E1 & _ & E2). exists v. split; [rewrite S; assumption|assumption]. }
  intros i j v. split.
  - intros C. pose proof C as C0. destruct C as (c & C1 & C2). apply entry_label in C1. apply entry_label in C2. destruct C1 as [C1 C1']. destruct C2 as [C2 _].
    rewrite Hl in C1. pose proof (proj1 (Forall_forall _ _) Hc _ C1') as Lc. cbn [snd] in Lc. rewrite Lc in C2.
    apply in_map_iff in C1. apply in_map_iff in C2. destruct C1 as (a & Ea & Ha). destruct C2 as (b & Eb & Hb).
    exists a, b. repeat (split; [assumption|]). destruct (K a b Ha Hb) as (w & E1 & E2). rewrite Ea, Eb in E2.
    rewrite E1. f_equal. exact (cell_unique _ _ _ _ _ E2 C0).
  - intros (a & b & Ha & Hb & <- & <- & Em). destruct (K a b Ha Hb) as (w & E1 & E2). congruence.
Qed.
Lemma pairwise_order (method : M -> M -> res V) ms ms' fr : NoDup (map ident ms) -> Permutation ms ms' -> symmetric ms method ->
  pairwise I_dec ident method ms = Ok fr -> exists fr', pairwise I_dec ident method ms' = Ok fr' /\
  forall i j v, cell fr' i j v <-> cell fr i j v.
Proof.
  intros N P S E.
  assert (N' : NoDup (map ident ms')) by (apply (Permutation_NoDup (l := map ident ms)); [apply Permutation_map; exact P|exact N]).
  assert (Hin : forall x, In x ms' <-> In x ms) by (intros x; split; apply Permutation_in; [apply Permutation_sym|]; exact P).
  assert (S' : symmetric ms' method) by (intros a b Ha Hb; apply S; apply Hin; assumption).
  destruct (pairwise I_dec ident method ms') as [fr'|e] eqn:E'.
  - exists fr'. split; [reflexivity|]. intros i j v.
    rewrite (pairwise_symmetric method ms' fr' N' S' E'), (pairwise_symmetric method ms fr N S E).
    split; intros (a & b & Ha & Hb & K); exists a, b; (split; [apply Hin; exact Ha|split; [apply Hin; exact Hb|exact K]]).
  - apply (pairwise_fails method ms' e N') in E'. destruct E' as (i & j & a & b & L & Ha & Hb & Ee & _).
    apply nth_error_In, Hin, in_place in Ha. apply nth_error_In, Hin, in_place in Hb. destruct Ha as [i' Ha]. destruct Hb as [j' Hb].
    destruct (pairwise_value method ms fr N E) as [_ Hv]. exfalso. destruct (le_lt_dec i' j') as [L'|L'].
    + destruct (Hv i' j' a b L' Ha Hb) as (v & E1 & _). congruence.
    + destruct (Hv j' i' b a ltac:(lia) Hb Ha) as (v & E1 & _).
      rewrite S in E1 by (eapply nth_error_In; eassumption). congruence.
Qed.

(** Series: one value for each member. *)
Lemma call_all (method : M -> res V) l2 : forall l1 ms s, ms = l1 ++ l2 -> NoDup (map ident ms) -> map fst s = map ident ms ->
  (forall m, In m l1 -> exists v, method m = Ok v /\ item s (ident m) = Ok (Some v)) ->
  match foldM (fun s m => do v <- method m; Ok (assign s (ident m) (Some v))) l2 s with
  | Ok s' => map fst s' = map ident ms /\ forall m, In m ms -> exists v, method m = Ok v /\ item s' (ident m) = Ok (Some v)
  | Err e => exists l m l', ms = l ++ m :: l' /\ method m = Err e /\ forall x, In x l -> exists v, method x = Ok v
  end.
Proof.
  induction l2 as [|m l2 IH]; intros l1 ms s E N Hl Hd; cbn [foldM].
  - rewrite app_nil_r in E. subst l1. split; assumption.
  - destruct (method m) as [v|e] eqn:Ev; cbn [bind].
    + apply (IH (l1 ++ [m])); [rewrite <- app_assoc; exact E|exact N| |].
      * rewrite assign_labels; [exact Hl|]. rewrite Hl, E, map_app. apply in_or_app. right. left. reflexivity.
      * intros x Hx. apply in_app_or in Hx. destruct Hx as [Hx|[<-|[]]].
        -- destruct (Hd x Hx) as [w [E1 E2]]. exists w. split; [exact E1|]. rewrite item_other; [exact E2|]. intros Ei.
           rewrite E, map_app in N. cbn [map] in N. apply NoDup_remove_2 in N. apply N. apply in_or_app. left. rewrite Ei. apply in_map. exact Hx.
        -- exists v. split; [exact Ev|apply item_same].
    + exists l1, m, l2. split; [exact E|]. split; [exact Ev|]. intros x Hx. destruct (Hd x Hx) as [w [E1 _]]. exists w. exact E1.
Qed.
Lemma labels_entries {A} (P : M -> A -> Prop) ms : forall s, NoDup (map ident ms) -> map fst s = map ident ms ->
  (forall m, In m ms -> exists v, P m v /\ item s (ident m) = Ok v) -> Forall2 (fun m p => fst p = ident m /\ P m (snd p)) ms s.
Proof.
  induction ms as [|m ms IH]; intros [|[i x] s] N L H; try discriminate; constructor.
  - cbn in L. injection L as -> L. split; [reflexivity|]. destruct (H m (or_introl eq_refl)) as (v & Pv & E). cbn [TableModel.item] in E.
    destruct (I_dec (ident m) (ident m)); [|congruence]. injection E as ->. exact Pv.
  - cbn in L. injection L as -> L. cbn [map] in N. apply NoDup_cons_iff in N. destruct N as [N1 N2]. apply IH; [exact N2|exact L|].
    intros m' Hm'. destruct (H m' (or_intror Hm')) as (v & Pv & E). exists v. split; [exact Pv|]. cbn [TableModel.item] in E.
    destruct (I_dec (ident m) (ident m')) as [Ei|]; [|exact E]. exfalso. apply N1. rewrite Ei. apply in_map. exact Hm'.
Qed.
Lemma call_on_all_cases (method : M -> res V) ms : NoDup (map ident ms) ->
  match call_on_all I_dec ident method ms with
  | Ok s => Forall2 (fun m p => fst p = ident m /\ exists v : V, method m = Ok v /\ snd p = Some v) ms s
  | Err e => exists l m l', ms = l ++ m :: l' /\ method m = Err e /\ forall x, In x l -> exists v : V, method x = Ok v
  end.
Proof.
  intros N. pose proof (call_all method ms [] ms (blank_series (map ident ms)) eq_refl N) as K. unfold call_on_all.
  destruct (foldM _ ms _) as [s|e].
  - destruct K as [K1 K2]; [unfold blank_series; rewrite map_map; cbn; apply map_id|intros m []|].
    apply (labels_entries (fun m x => exists v, method m = Ok v /\ x = Some v)); [exact N|exact K1|]. intros m Hm.
    destruct (K2 m Hm) as [v [E1 E2]]. exists (Some v). split; [exists v; split; [exact E1|reflexivity]|exact E2].
  - apply K; [unfold blank_series; rewrite map_map; cbn; apply map_id|intros m []].
Qed.
Lemma first_error (method : M -> res V) (ms : list M) (e : exn) l m l' : ms = l ++ m :: l' -> method m = Err e -> (forall x, In x l -> exists v : V, method x = Ok v) ->
  NoDup (map ident ms) -> call_on_all I_dec ident method ms = Err e.
Proof.
  intros E Em Hl N. pose proof (call_on_all_cases method ms N) as K. destruct (call_on_all I_dec ident method ms) as [s|e'].
  - exfalso. assert (Hm : In m ms) by (rewrite E; apply in_or_app; right; left; reflexivity).
    clear -K Hm Em. induction K as [|a p ms s [_ (v & Ev & _)] K IH]; [contradiction|]. destruct Hm as [->|Hm]; [congruence|auto].
  - f_equal. destruct K as (k & x & k' & E' & Ex & Hk). rewrite E in E'. clear -E' Em Ex Hl Hk. revert k E' Hk.
    induction l as [|a l IH]; intros [|b k] E' Hk; cbn [List.app] in E'; injection E' as E1 E2.
    + congruence.
    + subst b. destruct (Hk m (or_introl eq_refl)). congruence.
    + subst a. destruct (Hl x (or_introl eq_refl)). congruence.
    + apply (IH (fun y Hy => Hl y (or_intror Hy)) k E2). intros y Hy. apply Hk. right. exact Hy.
Qed.
End P.
