(** Proofs for WideSpec. *)
From Coq Require Import String Ascii Sorted Permutation Lia.
From Verif Require Import Base StoreSpec StoreProofs2 RawModel RawSpec RawProofs RawProofs2 WideModel WideSpec.
Import List. Open Scope list_scope. Open Scope nat_scope.

Lemma pick_picks {A} (l : list A) order : (forall i, In i order -> i < length l) -> Forall2 (fun i x => nth_error l i = Some x) order (pick order l).
Proof.
  induction order as [|i order IH]; intros H; [constructor|]. unfold pick. cbn [flat_map].
  assert (Hi : i < length l) by (apply H; left; reflexivity). destruct (nth_error l i) as [x|] eqn:E; [|apply nth_error_None in E; lia].
  cbn [List.app]. constructor; [exact E|]. apply IH. intros j Hj. apply H. right. exact Hj.
Qed.
Lemma combine_picks {A B} (l : list A) (c : list B) order x y : Forall2 (fun i a => nth_error l i = Some a) order x -> Forall2 (fun i a => nth_error c i = Some a) order y ->
  Forall2 (fun i r => nth_error l i = Some (fst r) /\ nth_error c i = Some (snd r)) order (combine x y).
Proof.
  intros H. revert y. induction H as [|i a order x Hi H IH]; intros y K; inversion K; subst; [constructor|]. cbn [combine]. constructor; [split; assumption|]. apply IH. assumption.
Qed.

Section P.
  Context {V : Type}.
  Lemma get_put_columns m b chan index (cols : list (list V)) s b' c : get (put_columns m b chan index cols s) (b', c) =
    if ((b' =? b) && (chan <? c))%Z then match nth_error cols (Z.to_nat (c - chan - 1)) with Some col => Some ([m], combine index col) | None => get s (b', c) end else get s (b', c).
  Proof.
    revert chan s. induction cols as [|x cols IH]; intros chan s; cbn [put_columns].
    - destruct ((b' =? b) && (chan <? c))%Z; [|reflexivity]. destruct (Z.to_nat (c - chan - 1)); reflexivity.
    - rewrite IH, get_put. unfold key_eqb. cbn [fst snd]. destruct (b' =? b)%Z eqn:E; cbn [andb]; [|reflexivity].
      destruct (Z.ltb_spec (chan + 1) c), (Z.ltb_spec chan c); try lia.
      + replace (Z.to_nat (c - chan - 1)) with (S (Z.to_nat (c - (chan + 1) - 1))) by lia. cbn [nth_error].
        destruct (c =? chan + 1)%Z eqn:E'; [apply Z.eqb_eq in E'; lia|]. reflexivity.
      + assert (c = chan + 1)%Z by lia. subst c. rewrite Z.eqb_refl. replace (Z.to_nat (chan + 1 - chan - 1)) with 0 by lia. reflexivity.
      + destruct (c =? chan + 1)%Z eqn:E'; [apply Z.eqb_eq in E'; lia|]. reflexivity.
  Qed.

  Context (argsort : list Z -> list nat) (Ha : orders argsort).
  (** A building as the loops leave it. *)
  Definition building_is (s : store V) (b : Z) (a : actype) (fr : frame V) : Prop :=
    forall c, get s (b, c) = if (0 <? c)%Z then match nth_error (snd fr) (Z.to_nat (c - 1)) with Some col => Some ([(Power, Some a)], combine (fst fr) col) | None => None end else None.
  Lemma building_is_holds s b a (fr : frame V) : (forall col, In col (snd fr) -> length col = length (fst fr)) ->
    building_is s b a (sort_index argsort fr) -> building_holds s b a (fst fr) (snd fr).
  Proof.
    intros L H. exists (argsort (fst fr)). destruct (Ha (fst fr)) as [P S]. assert (Hin : forall i, In i (argsort (fst fr)) -> i < length (fst fr)).
    { intros i Hi. apply (Permutation_in _ P) in Hi. apply in_seq in Hi. lia. }
    split; [split; assumption|]. split.
    - intros k col Hk. eexists. split.
      + rewrite H. destruct (Z.ltb_spec 0 (Z.of_nat k + 1)); [|lia]. replace (Z.to_nat (Z.of_nat k + 1 - 1)) with k by lia.
        unfold sort_index. cbn [fst snd]. rewrite nth_error_map, Hk. reflexivity.
      + apply combine_picks; apply pick_picks; [exact Hin|]. rewrite (L col (nth_error_In _ _ Hk)). exact Hin.
    - intros c Hc. rewrite H. destruct (Z.ltb_spec 0 c); [|reflexivity].
      assert (E : nth_error (snd (sort_index argsort fr)) (Z.to_nat (c - 1)) = None). { apply nth_error_None. unfold sort_index. cbn [snd]. rewrite map_length. lia. }
      rewrite E. reflexivity.
  Qed.

  Variable stamp : V -> option Z.
  Lemma to_datetime_ok l t : to_datetime stamp l = Ok t <-> Forall2 (fun v t => stamp v = Some t) l t.
  Proof.
    revert t. unfold to_datetime. induction l as [|v l IH]; intros t; cbn [mapM].
    - split; [intros [= <-]; constructor|intros H; inversion H; reflexivity].
    - destruct (stamp v) as [x|] eqn:E; cbn [bind].
      + destruct (mapM _ l) as [r|e] eqn:Er; cbn [bind].
        * split; [intros [= <-]; constructor; [exact E|apply IH; reflexivity]|]. intros H. inversion H; subst. rewrite E in H2. injection H2 as ->. apply IH in H4. injection H4 as ->. reflexivity.
        * split; [discriminate|]. intros H. inversion H; subst. apply IH in H4. discriminate.
      + split; [discriminate|]. intros H. inversion H; subst. congruence.
  Qed.
  Lemma to_datetime_err l e : to_datetime stamp l = Err e -> e = ValueError /\ exists v, In v l /\ stamp v = None.
  Proof.
    unfold to_datetime. induction l as [|v l IH]; cbn [mapM]; [discriminate|]. destruct (stamp v) as [x|] eqn:E; cbn [bind].
    - destruct (mapM _ l) as [r|e'] eqn:Er; cbn [bind]; [discriminate|]. intros [= <-]. destruct (IH eq_refl) as (H1 & w & H2 & H3). split; [exact H1|]. exists w. split; [right; exact H2|exact H3].
    - intros [= <-]. split; [reflexivity|]. exists v. split; [left; reflexivity|exact E].
  Qed.

  Lemma mem_iff s l : mem s l = true <-> In s l.
  Proof.
    unfold mem. rewrite existsb_exists. split; [intros (x & H & E); apply String.eqb_eq in E; subst; exact H|]. intros H. exists s. split; [exact H|apply String.eqb_refl].
  Qed.
  Lemma complete_iff (f : csv V) : forallb (fun c => mem c (map fst f)) usecols = true <-> complete f.
  Proof.
    rewrite forallb_forall. unfold complete. split.
    - intros H. split; [apply mem_iff, H; left; reflexivity|]. intros c Hc. apply mem_iff, H. right. exact Hc.
    - intros [H1 H2] c [<-|Hc]; apply mem_iff; [exact H1|apply H2; exact Hc].
  Qed.
  Lemma entry_filter {A} k (p : string -> bool) (f : list (string * A)) : p k = true -> entry k (filter (fun c => p (fst c)) f) = entry k f.
  Proof.
    intros Hp. induction f as [|[n x] f IH]; [reflexivity|]. cbn [filter fst]. destruct (p n) eqn:E; cbn [entry]; [rewrite IH; reflexivity|].
    destruct (String.eqb_spec k n); [congruence|exact IH].
  Qed.
  Lemma filter_is_filter {A} (P : A -> Prop) (p : A -> bool) l : (forall x, p x = true <-> P x) -> is_filter P l (filter p l).
  Proof.
    intros H. induction l as [|x l IH]; cbn [filter]; [constructor|]. destruct (p x) eqn:E.
    - apply filt_keep; [apply H; exact E|exact IH].
    - apply filt_drop; [rewrite <- H; congruence|exact IH].
  Qed.
  Lemma filter_filter' {A} (p q : A -> bool) l : filter q (filter p l) = filter (fun x => p x && q x) l.
  Proof. induction l as [|x l IH]; [reflexivity|]. cbn [filter]. destruct (p x); cbn [filter andb]; [destruct (q x); rewrite IH; reflexivity|exact IH]. Qed.
  Lemma usecols_power (x : string * list V) : mem (fst x) usecols && negb (String.eqb (fst x) "Unix") = true <-> In (fst x) power_columns.
  Proof.
    rewrite andb_true_iff, mem_iff, negb_true_iff, String.eqb_neq. split.
    - intros [[H|H] N]; [congruence|exact H].
    - intros H. split; [right; exact H|]. intros E. rewrite E in H. cbn in H. intuition discriminate.
  Qed.

  Lemma entry_unix (f : csv V) : NoDup (map fst f) -> In "Unix"%string (map fst f) -> exists u, entry "Unix" f = Some u /\ In ("Unix"%string, u) f.
  Proof.
    intros N H. apply in_map_iff in H. destruct H as ([n u] & E & H). cbn in E. subst n. exists u. split; [|exact H]. apply (find_in _ _ _ N). exact H.
  Qed.
  Lemma NoDup_unix (f : csv V) u u' : NoDup (map fst f) -> In ("Unix"%string, u) f -> In ("Unix"%string, u') f -> u = u'.
  Proof. intros N H H'. apply (find_in _ _ _ N) in H. apply (find_in _ _ _ N) in H'. congruence. Qed.

  Lemma refit_load_cases (f : csv V) : rectangular f ->
    (complete f /\ stamped stamp f /\ exists times kept, table_of stamp f times kept /\ refit_load stamp f = Ok (times, map snd kept) /\ forall col, In col (map snd kept) -> length col = length times) \/
    (~ (complete f /\ stamped stamp f) /\ refit_load stamp f = Err ValueError).
  Proof.
    intros [N [n R]]. unfold refit_load. destruct (forallb _ usecols) eqn:E.
    - apply complete_iff in E. destruct (entry_unix f N (proj1 E)) as (u & Eu & Hu).
      cbv zeta. rewrite (entry_filter "Unix" (fun c => mem c usecols) f eq_refl), Eu.
      destruct (to_datetime stamp u) as [t|e] eqn:Et; cbn [bind].
      + left. split; [exact E|]. apply to_datetime_ok in Et. split.
        { intros u' v Hu' Hv. rewrite (NoDup_unix f u' u N Hu' Hu) in Hv. clear -Et Hv. induction Et as [|a b l l' Hab H IH]; [destruct Hv|]. destruct Hv as [->|Hv]; [exists b; exact Hab|exact (IH Hv)]. }
        exists t, (filter (fun c => mem (fst c) usecols && negb (String.eqb (fst c) "Unix")) f).
        split; [exists u; split; [exact Hu|]; split; [exact Et|]; apply filter_is_filter; exact usecols_power|].
        rewrite filter_filter'. split; [reflexivity|]. intros col Hc. apply in_map_iff in Hc. destruct Hc as (c & <- & Hc). apply filter_In in Hc.
        rewrite Forall_forall in R. rewrite (R c (proj1 Hc)). rewrite <- (R _ Hu). cbn [snd]. symmetry. clear -Et. induction Et; cbn; congruence.
      + right. apply to_datetime_err in Et. destruct Et as (-> & v & Hv & Sv). split; [|reflexivity]. intros [_ S]. destruct (S u v Hu Hv) as [t Ht]. congruence.
    - right. split; [|reflexivity]. intros [C _]. apply complete_iff in C. congruence.
  Qed.

  Section Loop.
    Context (d : folder V) (p q : string).
    Lemma houses_lemma houses : forall id s s' o, refit_houses stamp argsort d p q houses id s = (s', o) -> (forall b c, (id < b)%Z -> get s (b, c) = None) ->
      exists n, n <= length houses /\
        (forall i h, nth_error houses i = Some h -> i < n -> exists fr, refit_house stamp argsort d p q h = Ok fr /\ building_is s' (id + 1 + Z.of_nat i) Active fr) /\
        (forall b c, (b <= id \/ id + Z.of_nat n < b)%Z -> get s' (b, c) = get s (b, c)) /\
        match o with None => n = length houses | Some e => exists h, nth_error houses n = Some h /\ refit_house stamp argsort d p q h = Err e end.
    Proof.
      induction houses as [|h houses IH]; intros id s s' o; cbn [refit_houses].
      - intros [= <- <-] _. exists 0. split; [cbn; lia|]. split; [intros i h _ H; lia|]. split; reflexivity.
      - destruct (refit_house stamp argsort d p q h) as [fr|e] eqn:E.
        + intros H Hs. apply IH in H; [|intros b c Hb; rewrite get_put_columns; destruct (b =? id + 1)%Z eqn:Eb; [apply Z.eqb_eq in Eb; lia|]; cbn [andb]; apply Hs; lia].
          destruct H as (n & Hn & H1 & H2 & H3). exists (S n). split; [cbn; lia|]. split; [|split].
          * intros [|i] h' Hi Hl.
            -- cbn in Hi. injection Hi as <-. exists fr. split; [exact E|]. intros c. rewrite H2 by lia. rewrite get_put_columns. replace (id + 1 + Z.of_nat 0)%Z with (id + 1)%Z by lia. rewrite Z.eqb_refl. cbn [andb].
               rewrite Hs by lia. replace (c - 0 - 1)%Z with (c - 1)%Z by lia. reflexivity.
            -- cbn [nth_error] in Hi. destruct (H1 i h' Hi ltac:(lia)) as (fr' & F1 & F2). exists fr'. split; [exact F1|]. replace (id + 1 + Z.of_nat (S i))%Z with (id + 1 + 1 + Z.of_nat i)%Z by lia. exact F2.
          * intros b c Hb. rewrite H2 by lia. rewrite get_put_columns. destruct (b =? id + 1)%Z eqn:Eb; [apply Z.eqb_eq in Eb; lia|]. reflexivity.
          * destruct o as [e|]; [exact H3|]. cbn. lia.
        + intros [= <- <-] _. exists 0. split; [lia|]. split; [intros i h' _ H; lia|]. split; [reflexivity|]. exists h. split; [reflexivity|exact E].
    Qed.
  End Loop.

  Lemma refit_ids_building h : refit_house_id h <-> nth_error refit_ids (Z.to_nat (building_of h - 1)) = Some h /\ (1 <= building_of h <= 20)%Z.
  Proof.
    unfold refit_house_id, building_of. split.
    - intros [H1 H2]. assert (K : In h refit_ids) by (unfold refit_ids; cbn [In]; lia).
      cbn [refit_ids In] in K. repeat (destruct K as [<-|K]; [split; [reflexivity|cbn; lia]|]). destruct K.
    - intros [H1 H2]. apply nth_error_In in H1. cbn [refit_ids In] in H1. lia.
  Qed.

  Lemma entry_none {A} k (l : list (string * A)) : entry k l = None <-> forall x, ~ In (k, x) l.
  Proof.
    induction l as [|[n y] l IH]; cbn [entry]; [split; [intros _ x []|reflexivity]|]. destruct (String.eqb_spec k n).
    - subst. split; [discriminate|]. intros H. elim (H y). left. reflexivity.
    - rewrite IH. split; intros H x; [intros [E|K]; [congruence|exact (H x K)]|]. intros K. apply (H x). right. exact K.
  Qed.

  (** The names chosen. *)
  Lemma name_file (d : folder V) h content : NoDup (map fst d) ->
    let original := match entry (csv_name "" "_" 1) d with Some _ => true | None => false end in
    (house_file d h content <-> entry (csv_name (if original then "" else "CLEAN_") (if original then "_" else "") h) d = Some content).
  Proof.
    intros N original. subst original. unfold house_file. change (csv_name "" "_" 1) with "House_1.csv"%string. destruct (entry "House_1.csv" d) as [c0|] eqn:E.
    - change (csv_name "" "_" h) with ("House_" ++ decimal h ++ ".csv")%string. rewrite (find_in _ _ _ N). apply (find_in _ _ _ N) in E. split.
      + intros [[_ H]|[H _]]; [exact H|elim (H c0 E)].
      + intros H. left. split; [exists c0; exact E|exact H].
    - change (csv_name "CLEAN_" "" h) with ("CLEAN_House" ++ decimal h ++ ".csv")%string. rewrite (find_in _ _ _ N). pose proof (proj1 (entry_none _ _) E) as E'. split.
      + intros [[[c H] _]|[_ H]]; [elim (E' c H)|exact H].
      + intros H. right. split; [exact E'|exact H].
  Qed.

  Lemma refit_house_cases (d : folder V) h : usable d ->
    let original := match entry (csv_name "" "_" 1) d with Some _ => true | None => false end in
    let r := refit_house stamp argsort d (if original then "" else "CLEAN_") (if original then "_" else "") h in
    (exists f times kept, house_file d h (Ok f) /\ complete f /\ stamped stamp f /\ table_of stamp f times kept /\ r = Ok (sort_index argsort (times, map snd kept)) /\ forall col, In col (map snd kept) -> length col = length times) \/
    (exists e, r = Err e /\ ((e = RuntimeError /\ forall c, ~ house_file d h c) \/ house_file d h (Err e) \/
       (e = ValueError /\ exists f, house_file d h (Ok f) /\ ~ (complete f /\ stamped stamp f)))).
  Proof.
    intros [N R] original r. pose proof (fun c => name_file d h c N) as F. cbv zeta in F. fold original in F. unfold r, refit_house.
    destruct (entry (csv_name (if original then "" else "CLEAN_") (if original then "_" else "") h) d) as [[f|e]|] eqn:E; cbn [bind].
    - destruct (refit_load_cases f (R _ f (proj1 (find_in _ _ _ N) E))) as [(C & S & times & kept & T & -> & L)|[C ->]]; cbn [bind].
      + left. exists f, times, kept. split; [apply F; reflexivity|]. repeat (split; [assumption|]). split; [reflexivity|exact L].
      + right. exists ValueError. split; [reflexivity|]. right. right. split; [reflexivity|]. exists f. split; [apply F; reflexivity|exact C].
    - right. exists e. split; [reflexivity|]. right. left. apply F. reflexivity.
    - right. exists RuntimeError. split; [reflexivity|]. left. split; [reflexivity|]. intros c Hc. apply F in Hc. congruence.
  Qed.

  Lemma refit_lemma d s o : usable d -> convert_refit stamp argsort (Some d) = (s, o) ->
    exists n, (0 <= n <= 20)%Z /\ (forall h, refit_house_id h -> (building_of h <= n)%Z -> (exists f, house_file d h (Ok f) /\ complete f /\ stamped stamp f) /\ imported stamp s d h) /\
      (forall b c, (b < 1 \/ n < b)%Z -> get s (b, c) = None) /\
      match o with
      | None => n = 20%Z
      | Some e => exists h, refit_house_id h /\ building_of h = (n + 1)%Z /\
          ((e = RuntimeError /\ forall c, ~ house_file d h c) \/ house_file d h (Err e) \/ (e = ValueError /\ exists f, house_file d h (Ok f) /\ ~ (complete f /\ stamped stamp f)))
      end.
  Proof.
    intros U H. unfold convert_refit in H. apply houses_lemma in H; [|reflexivity]. destruct H as (n & Hn & H1 & H2 & H3).
    exists (Z.of_nat n). cbn [length refit_ids] in Hn. split; [lia|]. split; [|split].
    - intros h Hh Hb. apply refit_ids_building in Hh. destruct Hh as [Hh Hr]. destruct (H1 _ h Hh ltac:(lia)) as (fr & E & B).
      destruct (refit_house_cases d h U) as [(f & times & kept & F & C & S & T & Er & L)|(e & Er & _)]; [|rewrite Er in E; discriminate].
      rewrite Er in E. injection E as <-. split; [exists f; repeat (split; [assumption|]); assumption|].
      exists f, times, kept. split; [exact F|]. split; [exact T|]. replace (0 + 1 + Z.of_nat (Z.to_nat (building_of h - 1)))%Z with (building_of h) in B by lia.
      exact (building_is_holds s (building_of h) Active (times, map snd kept) L B).
    - intros b c Hb. rewrite H2 by lia. reflexivity.
    - destruct o as [e|]; [|subst n; reflexivity]. destruct H3 as (h & Hh & E). exists h.
      assert (B : refit_house_id h /\ building_of h = (Z.of_nat n + 1)%Z).
      { clear -Hh. do 20 (destruct n as [|n]; [cbn in Hh; injection Hh as <-; split; [split; [lia|discriminate]|reflexivity]|]). destruct n; discriminate. }
      split; [exact (proj1 B)|]. split; [exact (proj2 B)|].
      destruct (refit_house_cases d h U) as [(f & times & kept & _ & _ & _ & _ & Er & _)|(e' & Er & K)]; [rewrite Er in E; discriminate|]. rewrite Er in E. injection E as ->. exact K.
  Qed.

  Lemma house_file_unique (d : folder V) h c c' : NoDup (map fst d) -> house_file d h c -> house_file d h c' -> c = c'.
  Proof. intros N H H'. apply (name_file d h c N) in H. apply (name_file d h c' N) in H'. congruence. Qed.

  Lemma refit_imports d s : usable d -> convert_refit stamp argsort (Some d) = (s, None) ->
    (forall h, refit_house_id h -> imported stamp s d h) /\ (forall b c, (b < 1 \/ 20 < b)%Z -> get s (b, c) = None).
  Proof.
    intros U H. destruct (refit_lemma d s None U H) as (n & Hn & H1 & H2 & ->). split; [|exact H2]. intros h Hh. apply H1; [exact Hh|]. apply refit_ids_building in Hh. lia.
  Qed.
  Lemma refit_succeeds (d : folder V) : usable d -> (snd (convert_refit stamp argsort (Some d)) = None <->
    forall h, refit_house_id h -> exists f, house_file d h (Ok f) /\ complete f /\ stamped stamp f).
  Proof.
    intros U. destruct (convert_refit stamp argsort (Some d)) as [s o] eqn:E. cbn [snd]. destruct (refit_lemma d s o U E) as (n & Hn & H1 & _ & H3). split.
    - intros ->. subst n. intros h Hh. apply H1; [exact Hh|]. apply refit_ids_building in Hh. lia.
    - intros H. destruct o as [e|]; [|reflexivity]. destruct H3 as (h & Hh & _ & K). destruct (H h Hh) as (f & F & C & S). destruct K as [[_ K]|[K|(_ & f' & F' & K)]].
      + elim (K _ F).
      + discriminate (house_file_unique d h _ _ (proj1 U) F K).
      + pose proof (house_file_unique d h _ _ (proj1 U) F F') as Q. injection Q as <-. elim K. split; assumption.
  Qed.
  Lemma refit_interrupted (d : folder V) s e : usable d -> convert_refit stamp argsort (Some d) = (s, Some e) ->
    exists h, refit_house_id h /\
      ((e = RuntimeError /\ forall c, ~ house_file d h c) \/ house_file d h (Err e) \/ (e = ValueError /\ exists f, house_file d h (Ok f) /\ ~ (complete f /\ stamped stamp f))) /\
      (forall h', refit_house_id h' -> (h' < h)%Z -> imported stamp s d h') /\
      (forall b c, (b < 1 \/ building_of h <= b)%Z -> get s (b, c) = None).
  Proof.
    intros U H. destruct (refit_lemma d s _ U H) as (n & Hn & H1 & H2 & h & Hh & Hb & K). exists h. split; [exact Hh|]. split; [exact K|]. split.
    - intros h' Hh' Hl. apply H1; [exact Hh'|]. revert Hb Hh Hh'. unfold building_of, refit_house_id. destruct (Z.leb_spec h 13), (Z.leb_spec h' 13); lia.
    - intros b c Hc. apply H2. lia.
  Qed.

  Lemma filter_in {A} (P : A -> Prop) l m x : is_filter P l m -> In x l -> P x -> In x m.
  Proof. induction 1 as [|y l m Hy H IH|y l m Hy H IH]; intros Hx Px; [exact Hx| |]; (destruct Hx as [->|Hx]; [|auto]); [left; reflexivity|right; auto|contradiction]. Qed.
  Lemma filter_sub {A} (P : A -> Prop) l m x : is_filter P l m -> In x m -> In x l.
  Proof. induction 1 as [|y l m Hy H IH|y l m Hy H IH]; intros Hx; [exact Hx| |]; [destruct Hx as [->|Hx]; [left; reflexivity|right; auto]|right; auto]. Qed.
  Lemma refit_usual (d : folder V) s h f k name col u : usable d -> convert_refit stamp argsort (Some d) = (s, None) -> refit_house_id h -> house_file d h (Ok f) ->
    (forall kept, is_filter (fun c => In (fst c) power_columns) f kept -> map fst kept = power_columns) ->
    nth_error power_columns k = Some name -> In (name, col) f -> In ("Unix"%string, u) f ->
    exists times order l, Forall2 (fun v t => stamp v = Some t) u times /\ in_order times order /\ get s (building_of h, (Z.of_nat k + 1)%Z) = Some ([(Power, Some Active)], l) /\
      Forall2 (fun i r => nth_error times i = Some (fst r) /\ nth_error col i = Some (snd r)) order l.
  Proof.
    intros U E Hh F Hu Hk Hc Huu. destruct (proj1 (refit_imports d s U E) h Hh) as (f' & times & kept & F' & (u' & T1 & T2 & T3) & order & O & B & _).
    pose proof (house_file_unique d h _ _ (proj1 U) F F') as Q. injection Q as <-.
    assert (N : NoDup (map fst f)). { destruct (proj2 U) with (n := csv_name (if match entry (csv_name "" "_" 1) d with Some _ => true | None => false end then "" else "CLEAN_") (if match entry (csv_name "" "_" 1) d with Some _ => true | None => false end then "_" else "") h) (f := f) as [N _]; [|exact N]. apply (find_in _ _ _ (proj1 U)). apply (name_file d h (Ok f) (proj1 U)). exact F. }
    rewrite (NoDup_unix f u' u N T1 Huu) in T2. specialize (Hu kept T3).
    assert (Kk : nth_error kept k = Some (name, col)).
    { rewrite <- Hu in Hk. rewrite nth_error_map in Hk. destruct (nth_error kept k) as [[n c]|] eqn:Ek; [|discriminate]. cbn in Hk. injection Hk as ->.
      apply nth_error_In in Ek. apply (filter_sub _ _ _ _ T3) in Ek. apply (find_in _ _ _ N) in Ek. apply (find_in _ _ _ N) in Hc. congruence. }
    destruct (B k col) as (l & G & L); [rewrite nth_error_map, Kk; reflexivity|]. exists times, order, l. repeat (split; [assumption|]). exact L.
  Qed.

  (** DRED. *)
  Variable nan : V.
  Lemma dred_lemma (file : res (list (list V))) s : (forall lines, file = Ok lines -> Forall (fun l => l <> []) lines) -> convert_dred stamp nan argsort file = (s, None) ->
    exists lines times cols, file = Ok lines /\ dred_table stamp nan lines times cols /\ building_holds s 1 Apparent times cols /\ forall b c, b <> 1%Z -> get s (b, c) = None.
  Proof.
    intros Hne. unfold convert_dred. destruct file as [lines|e]; cbn [bind]; [|discriminate]. specialize (Hne lines eq_refl). unfold dred_load.
    destruct lines as [|a [|b [|c lines]]]; cbn [skipn]; try discriminate. destruct lines as [|first r]; [discriminate|].
    destruct (existsb _ r); [discriminate|]. destruct (Nat.eqb_spec (length first) dred_columns) as [L|L]; cbn [negb]; [|discriminate].
    destruct (to_datetime stamp _) as [t|e] eqn:Et; cbn [bind]; [|discriminate]. rewrite L. change (dred_columns - 1) with 13. remember (first :: r) as body eqn:Ebody. intros H. apply (f_equal fst) in H. cbn [fst] in H. subst s.
    set (cols := map (fun j => map (fun l => nth j l nan) body) (seq 1 13)). exists (a :: b :: c :: body), t, cols. split; [reflexivity|]. apply to_datetime_ok in Et.
    assert (Hb : Forall (fun l => l <> []) body) by (repeat (apply Forall_cons_iff in Hne; destruct Hne as [_ Hne]; try exact Hne)).
    split; [|split].
    - exists a, b, c, body. split; [reflexivity|]. split; [|split; [reflexivity|]].
      + clear -Et Hb. induction body as [|x body IH] in t, Et, Hb |- *; cbn [map] in Et; inversion Et; subst; constructor.
        * apply Forall_cons_iff in Hb. destruct x as [|v x]; [elim (proj1 Hb eq_refl)|]. exists v. split; [reflexivity|assumption].
        * apply IH; [assumption|]. apply Forall_cons_iff in Hb. apply Hb.
      + intros j col Hj. unfold cols in Hj. rewrite nth_error_map in Hj. destruct (nth_error (seq 1 13) j) as [j'|] eqn:Ej; [|discriminate]. injection Hj as <-.
        assert (j' = S j). { assert (j < length (seq 1 13)) by (apply nth_error_Some; congruence). rewrite seq_length in H. apply (nth_error_nth _ _ 0) in Ej. rewrite seq_nth in Ej by exact H. lia. } subst j'.
        generalize body. intros bd. clear. induction bd as [|x bd IH]; cbn [map]; constructor; [|exact IH].
        destruct (nth_error x (S j)) as [v|] eqn:E; [left; rewrite (nth_error_nth _ _ nan E); reflexivity|]. right. split; [reflexivity|]. apply nth_overflow. apply nth_error_None. exact E.
    - apply (building_is_holds _ _ _ (t, cols)).
      + cbn [snd fst]. intros col Hc. unfold cols in Hc. apply in_map_iff in Hc. destruct Hc as (j & <- & _). rewrite map_length. rewrite <- (map_length (fun l => nth 0 l nan) body). revert Et. generalize (map (fun l => nth 0 l nan) body). intros m Et. clear -Et. induction Et; cbn; congruence.
      + intros k. rewrite get_put_columns. cbn [Z.eqb andb Pos.eqb]. replace (k - 0 - 1)%Z with (k - 1)%Z by lia. destruct (0 <? k)%Z; [|reflexivity]. destruct (nth_error _ _); reflexivity.
    - intros b' c' Hb'. rewrite get_put_columns. destruct (Z.eqb_spec b' 1); [contradiction|]. reflexivity.
  Qed.
  Lemma dred_succeeds (lines : list (list V)) : Forall (fun l => l <> []) lines ->
    (snd (convert_dred stamp nan argsort (Ok lines)) = None <->
     exists a b c first r, lines = a :: b :: c :: first :: r /\ length first = 14 /\ Forall (fun l => length l <= 14) r /\
       forall l v, In l (first :: r) -> nth_error l 0 = Some v -> exists t, stamp v = Some t).
  Proof.
    intros Hne. unfold convert_dred. cbn [bind]. unfold dred_load. split.
    - destruct lines as [|a [|b [|c lines]]]; cbn [skipn]; try discriminate. destruct lines as [|first r]; [discriminate|].
      destruct (existsb _ r) eqn:Ex; [discriminate|]. destruct (Nat.eqb_spec (length first) dred_columns) as [L|L]; cbn [negb]; [|discriminate].
      destruct (to_datetime stamp _) as [t|e] eqn:Et; cbn [bind]; [|discriminate]. intros _. exists a, b, c, first, r. split; [reflexivity|]. split; [exact L|]. split.
      + rewrite L in Ex. apply Forall_forall. intros l Hl. destruct (Nat.leb_spec (length l) 14); [assumption|]. assert (X : existsb (fun l => dred_columns <? length l) r = true); [|congruence].
        apply existsb_exists. exists l. split; [exact Hl|]. apply Nat.ltb_lt. exact H.
      + apply to_datetime_ok in Et. intros l v Hl Hv. remember (first :: r) as body. clear -Et Hl Hv. induction body as [|x body IH] in t, Et, Hl |- *; [destruct Hl|]. cbn [map] in Et. inversion Et; subst.
        destruct Hl as [->|Hl]; [|eapply IH; eassumption]. exists y. rewrite <- H1. f_equal. symmetry. apply nth_error_nth. exact Hv.
    - intros (a & b & c & first & r & -> & L & W & S). cbn [skipn]. rewrite L. change (14 =? dred_columns) with true. cbn [negb].
      destruct (existsb _ r) eqn:Ex; [apply existsb_exists in Ex; destruct Ex as (l & Hl & H); rewrite Forall_forall in W; specialize (W l Hl); apply Nat.ltb_lt in H; lia|].
      destruct (to_datetime stamp _) as [t|e] eqn:Et; cbn [bind]; [reflexivity|]. apply to_datetime_err in Et. destruct Et as (_ & v & Hv & Sv).
      change (map (fun l => nth 0 l nan) (first :: r)) with (map (fun l => nth 0 l nan) (first :: r)) in Hv. apply in_map_iff in Hv. destruct Hv as (l & Ev & Hl).
      assert (Hnl : l <> []). { rewrite Forall_forall in Hne. apply Hne. right. right. right. exact Hl. }
      destruct l as [|w l]; [congruence|]. cbn in Ev. subst w. destruct (S (v :: l) v Hl eq_refl) as [t Ht]. congruence.
  Qed.
  Lemma dred_fails (file : res (list (list V))) s e : convert_dred stamp nan argsort file = (s, Some e) -> s = [] /\ (file = Err e \/ e = ValueError).
  Proof.
    unfold convert_dred. destruct file as [lines|e']; cbn [bind]; [|intros [= <- <-]; split; [reflexivity|left; reflexivity]]. unfold dred_load.
    destruct (skipn 3 lines) as [|first r]; [intros [= <- <-]; auto|]. destruct (existsb _ r); [intros [= <- <-]; auto|]. destruct (negb _); [intros [= <- <-]; auto|].
    destruct (to_datetime stamp _) as [t|e'] eqn:Et; cbn [bind]; [discriminate|]. intros [= <- <-]. apply to_datetime_err in Et. split; [reflexivity|right; apply Et].
  Qed.
End P.

Lemma combine_seq {A} (l : list A) k d x i : In (x, i) (combine l (seq k (length l))) -> nth (i - k) l d = x /\ k <= i.
Proof.
  revert k. induction l as [|y l IH]; intros k; cbn [length seq combine]; [intros []|]. intros [[= <- <-]|H].
  - split; [|lia]. replace (k - k) with 0 by lia. reflexivity.
  - destruct (IH (S k) H) as [E K]. split; [|lia]. replace (i - k) with (S (i - S k)) by lia. exact E.
Qed.
Lemma stable_order_orders : orders stable_order.
Proof.
  intros l. unfold stable_order. destruct (sort_rows_sorts true (combine l (seq 0 (length l)))) as [P S]. split.
  - apply Permutation_trans with (map snd (combine l (seq 0 (length l)))); [apply Permutation_map; exact P|].
    assert (E : map snd (combine l (seq 0 (length l))) = seq 0 (length l)). { generalize 0. induction l as [|x l IH]; intros k; cbn; [reflexivity|]. f_equal. apply IH; [|]; clear. all: destruct (sort_rows_sorts true (combine l (seq 0 (length l)))) as [P S]; assumption. }
    rewrite E. apply Permutation_refl.
  - rewrite map_map. assert (E : map (fun x : Z * nat => nth (snd x) l 0%Z) (RawSpec.sort_rows true (combine l (seq 0 (length l)))) = map fst (RawSpec.sort_rows true (combine l (seq 0 (length l))))).
    { apply map_ext_in. intros [x i] H. apply (Permutation_in _ P) in H. destruct (combine_seq l 0 0%Z x i H) as [E _]. rewrite Nat.sub_0_r in E. exact E. }
    rewrite E. exact S.
Qed.
