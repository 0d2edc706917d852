From Coq Require Import String Ascii QArith Reals Qreals Permutation Lia.
From Verif Require Import Base LabelModel LabelProofs RmseModel RmseSpec RmseProofs.
Import List. Open Scope list_scope. Open Scope nat_scope.

(** *** Labels that occur more than once *)
Lemma mentions_iff c s : ~ mentions c s <-> has_char c s = false.
Proof.
  induction s as [|a s IH]; cbn [mentions has_char]; [tauto|]. rewrite orb_false_iff, <- IH, Ascii.eqb_neq. tauto.
Qed.
Definition suffix (s : string) (m : emeter) : string := (s ++ " (" ++ bound "building" m ++ ", " ++ bound "instance" m ++ ")")%string.
Lemma suffix_paren s m : has_char "(" (suffix s m) = true.
Proof. unfold suffix. rewrite has_char_app. cbn [String.append has_char]. rewrite orb_true_iff. right. reflexivity. Qed.
Lemma bound_cut m n x y : (bound "building" m ++ x = bound "building" n ++ y)%string -> e_building m = e_building n /\ e_instance m = e_instance n.
Proof.
  unfold bound, repr_meter. intros E. rewrite !sapp_assoc in E. do 4 (apply sapp_inj in E).
  change (", building=")%string with (String "," " building=")%string in E. cbn [String.append] in E.
  assert (C : forall z, has_char "," (str_int z) = false) by (intros z; apply num_no_char; [apply str_int_num|reflexivity]).
  apply cut_at in E; [|apply C|apply C]. destruct E as [EI E]. apply str_int_inj in EI.
  apply (sapp_inj " building=") in E. change (", dataset=")%string with (String "," " dataset=")%string in E. cbn [String.append] in E.
  apply cut_at in E; [|apply C|apply C]. destruct E as [EB _]. apply str_int_inj in EB. now split.
Qed.
Lemma suffix_inj s t m n : has_char "(" s = false -> has_char "(" t = false -> suffix s m = suffix t n ->
  s = t /\ (e_building m, e_instance m) = (e_building n, e_instance n).
Proof.
  intros A B E. unfold suffix in E.
  assert (X : forall a r, (a ++ " (" ++ r = (a ++ " ") ++ String "(" r)%string) by (intros a r; now rewrite sapp_assoc).
  rewrite !X in E. apply cut_at in E; [|rewrite has_char_app; cbn; now rewrite ?A, ?B|rewrite has_char_app; cbn; now rewrite ?A, ?B].
  destruct E as [E1 E2]. apply (cut_last " ") in E1; [|reflexivity|reflexivity]. apply bound_cut in E2. destruct E2 as [-> ->]. now split.
Qed.

Notation base := (emeter * string * option R)%type.
Definition fin (P : string -> bool) (x : base) : entry :=
  let '(m, s, e) := x in (Met m, Name (if P s then suffix s m else s), e).
Lemma rename_all P c l : has_char "(" c = false -> Forall (fun x : base => has_char "(" (snd (fst x)) = false) l -> P c = false ->
  mapM (rename (Name c)) (map (fin P) l) = Ok (map (fin (fun s => P s || String.eqb s c)) l).
Proof.
  intros C F Pc. induction l as [|[[m s] e] l IH]; [reflexivity|]. apply Forall_cons_iff in F. destruct F as [Fs F]. cbn [fst snd] in Fs.
  cbn [map mapM]. unfold fin at 1 3. unfold rename at 1. cbn [same].
  destruct (P s) eqn:Ps; cbn [orb].
  - destruct (String.eqb_spec (suffix s m) c) as [K|_]; [rewrite <- K, suffix_paren in C; discriminate|]. rewrite (IH F). reflexivity.
  - destruct (String.eqb_spec s c) as [->|_]; rewrite (IH F); reflexivity.
Qed.
Lemma fin_ext P P' l : Forall (fun x : base => P (snd (fst x)) = P' (snd (fst x))) l -> map (fin P) l = map (fin P') l.
Proof. intros H. induction H as [|[[m s] e] l E _ IH]; [reflexivity|]. cbn [map fin snd fst] in *. now rewrite E, IH. Qed.

Definition named (p : string * nat) : column * nat := (Name (fst p), snd p).
Lemma renames l : Forall (fun x : base => has_char "(" (snd (fst x)) = false) l -> forall todo P,
  Forall (fun p => has_char "(" (fst p) = false /\ P (fst p) = false) todo -> NoDup (map fst todo) ->
  foldM (fun es c => if snd c <? 2 then Ok es else mapM (rename (fst c)) es) (map named todo) (map (fin P) l)
  = Ok (map (fin (fun s => P s || existsb (fun p => String.eqb s (fst p) && (2 <=? snd p)) todo)) l).
Proof.
  intros F. induction todo as [|[c n] todo IH]; intros P H N; cbn [map foldM].
  - cbn [existsb]. f_equal. apply fin_ext. apply Forall_forall. intros x _. now rewrite orb_false_r.
  - apply Forall_cons_iff in H. destruct H as [[Hc Pc] H]. cbn [fst] in Hc, Pc. cbn [map fst] in N. inversion_clear N as [|? ? N1 N2].
    unfold named at 1 2. cbn [fst snd]. destruct (Nat.ltb_spec n 2) as [K|K]; cbn [bind].
    + rewrite (IH P H N2). f_equal. apply fin_ext. apply Forall_forall. intros x _. cbn [existsb fst snd].
      replace (2 <=? n) with false by (symmetry; apply Nat.leb_gt; lia). now rewrite andb_false_r.
    + rewrite (rename_all P c l Hc F Pc). cbn [bind]. rewrite IH.
      * f_equal. apply fin_ext. apply Forall_forall. intros x _. cbn [existsb fst snd]. replace (2 <=? n) with true by (symmetry; now apply Nat.leb_le).
        now rewrite andb_true_r, orb_assoc.
      * rewrite Forall_forall in *. intros p I. destruct (H p I) as [A B]. split; [exact A|]. rewrite B. cbn [orb]. apply String.eqb_neq. intros K0. apply N1. rewrite <- K0. now apply in_map.
      * exact N2.
Qed.

(** *** Counting *)
Definition counted (L : list string) (cs : list (string * nat)) : Prop :=
  NoDup (map fst cs) /\ forall s n, In (s, n) cs <-> n = count_occ string_dec L s /\ 0 < n.
Lemma counted_in L cs s : counted L cs -> In s (map fst cs) <-> In s L.
Proof.
  intros [_ H]. rewrite (count_occ_In string_dec L). split.
  - intros K. apply in_map_iff in K. destruct K as ([t n] & E & K). cbn in E. subst t. apply H in K. lia.
  - intros K. apply in_map_iff. exists (s, count_occ string_dec L s). split; [reflexivity|]. apply H. split; [reflexivity|lia].
Qed.
Fixpoint bump (s : string) (cs : list (string * nat)) : list (string * nat) :=
  match cs with
  | [] => [(s, 1)]
  | (k, n) :: r => if String.eqb s k then (k, S n) :: r else (k, n) :: bump s r
  end.
Lemma add_count_bump s cs : add_count (Name s) (map named cs) = map named (bump s cs).
Proof.
  induction cs as [|[k n] cs IH]; [reflexivity|]. cbn [map bump]. unfold named at 1. cbn [fst snd add_count same]. destruct (String.eqb s k); [reflexivity|].
  cbn [map]. now rewrite IH.
Qed.
Lemma bump_keys s cs t : In t (map fst (bump s cs)) <-> t = s \/ In t (map fst cs).
Proof.
  induction cs as [|[k n] cs IH]; cbn [bump map fst In]; [intuition congruence|]. destruct (String.eqb_spec s k) as [->|N]; cbn [map fst In]; [|rewrite IH]; intuition congruence.
Qed.
Lemma bump_nodup s cs : NoDup (map fst cs) -> NoDup (map fst (bump s cs)).
Proof.
  induction cs as [|[k n] cs IH]; cbn [bump map fst]; intros N; [constructor; [easy|constructor]|]. inversion_clear N as [|? ? N1 N2].
  destruct (String.eqb_spec s k) as [->|D]; cbn [map fst]; constructor; auto. rewrite bump_keys. intros [K|K]; [congruence|easy].
Qed.
Lemma bump_in s cs t n : NoDup (map fst cs) ->
  In (t, n) (bump s cs) <-> (t <> s /\ In (t, n) cs) \/ (t = s /\ ((n = 1 /\ ~ In s (map fst cs)) \/ exists k, n = S k /\ In (s, k) cs)).
Proof.
  induction cs as [|[k j] cs IH]; cbn [bump map fst]; intros N.
  - cbn [In]. split; [intros [[= <- <-]|[]]; right; split; [reflexivity|left; split; [reflexivity|easy]]|].
    intros [[_ []]|[-> [[-> _]|(k & _ & [])]]]. now left.
  - inversion_clear N as [|? ? N1 N2]. destruct (String.eqb_spec s k) as [->|D]; cbn [In].
    + split.
      * intros [[= <- <-]|K]; [right; split; [reflexivity|]; right; exists j; split; [reflexivity|now left]|].
        left. split; [|now right]. intros ->. apply N1. apply in_map_iff. now exists (k, n).
      * intros [[A [B|B]]|[-> [[_ B]|(i & -> & [B|B])]]].
        -- injection B as -> _. congruence.
        -- now right.
        -- exfalso. apply B. now left.
        -- injection B as ->. now left.
        -- exfalso. apply N1. apply in_map_iff. now exists (k, i).
    + rewrite (IH N2). split.
      * intros [[= <- <-]|[[A B]|[-> [[-> B]|(i & -> & B)]]]].
        -- left. split; [congruence|now left].
        -- left. auto.
        -- right. split; [reflexivity|]. left. split; [reflexivity|]. intros [K|K]; congruence.
        -- right. split; [reflexivity|]. right. exists i. auto.
      * intros [[A [B|B]]|[-> [[-> B]|(i & -> & [B|B])]]].
        -- now left.
        -- right. left. auto.
        -- right. right. split; [reflexivity|]. left. split; [reflexivity|]. intros K. apply B. now right.
        -- injection B as -> ->. congruence.
        -- right. right. split; [reflexivity|]. right. now exists i.
Qed.
Lemma counted_bump L cs s : counted L cs -> counted (L ++ [s]) (bump s cs).
Proof.
  intros C. pose proof C as [N H]. split; [now apply bump_nodup|]. intros t n. rewrite (bump_in s cs t n N), count_occ_app. cbn [count_occ].
  destruct (string_dec s t) as [<-|D].
  - split.
    + intros [[K _]|[_ [[-> K]|(k & -> & K)]]]; [congruence| |].
      * rewrite (counted_in L cs s C) in K. rewrite (proj1 (count_occ_not_In string_dec L s) K). lia.
      * apply H in K. lia.
    + intros [-> _]. right. split; [reflexivity|]. destruct (count_occ string_dec L s) as [|k] eqn:E.
      * left. split; [reflexivity|]. rewrite (counted_in L cs s C). now apply count_occ_not_In in E.
      * right. exists (S k). split; [lia|]. apply H. split; [now rewrite E|lia].
  - rewrite Nat.add_0_r, H. split; [intros [[_ K]|[-> _]]; [exact K|congruence]|intros K; left; split; [congruence|exact K]].
Qed.
Lemma counts_of (l : list base) : exists cs, app_counts (map (fin (fun _ => false)) l) = map named cs /\ counted (map (fun x => snd (fst x)) l) cs.
Proof.
  unfold app_counts. induction l as [|[[m s] e] l IH] using rev_ind.
  - exists []. split; [reflexivity|]. split; [constructor|]. intros s n. cbn. lia.
  - destruct IH as (cs & E & C). exists (bump s cs). rewrite !map_app, fold_left_app, E. cbn [map fold_left fin fst snd]. split; [apply add_count_bump|]. now apply counted_bump.
Qed.
Definition twice (l : list base) (s : string) : bool := 2 <=? count_occ string_dec (map (fun x => snd (fst x)) l) s.
Lemma differentiated l : Forall (fun x : base => has_char "(" (snd (fst x)) = false) l ->
  differentiate (map (fin (fun _ => false)) l) = Ok (map (fin (twice l)) l).
Proof.
  intros F. destruct (counts_of l) as (cs & E & C). unfold differentiate. rewrite E. rewrite (renames l F cs (fun _ => false)).
  - f_equal. apply fin_ext. apply Forall_forall. intros x I. cbn [orb]. unfold twice. destruct C as [N H].
    set (s := snd (fst x)). set (L := map (fun x : base => snd (fst x)) l) in *. assert (IL : In s L) by (apply in_map_iff; exists x; auto).
    apply (count_occ_In string_dec) in IL. destruct (Nat.leb_spec 2 (count_occ string_dec L s)) as [K|K].
    + apply existsb_exists. exists (s, count_occ string_dec L s). split; [apply H; split; [reflexivity|lia]|]. cbn [fst snd]. rewrite String.eqb_refl. cbn [andb]. now apply Nat.leb_le.
    + apply not_true_iff_false. intros X. apply existsb_exists in X. destruct X as ([t n] & I' & X). cbn [fst snd] in X. apply andb_true_iff in X. destruct X as [X Y].
      apply String.eqb_eq in X. subst t. apply Nat.leb_le in Y. apply H in I'. lia.
  - apply Forall_forall. intros [s n] I. cbn [fst]. split; [|reflexivity]. assert (K : In s (map fst cs)) by (apply in_map_iff; now exists (s, n)).
    rewrite (counted_in _ _ s C) in K. apply in_map_iff in K. destruct K as (x & <- & K). rewrite Forall_forall in F. now apply F.
  - apply C.
Qed.

(** *** Different keys *)
Lemma count_two (L : list string) s i j : i <> j -> nth_error L i = Some s -> nth_error L j = Some s -> 2 <= count_occ string_dec L s.
Proof.
  revert i j. induction L as [|a L IH]; intros i j D A B; [destruct i; discriminate|]. cbn [count_occ].
  assert (X : forall k, nth_error L k = Some s -> 1 <= count_occ string_dec L s) by (intros k K; apply nth_error_In in K; apply (count_occ_In string_dec) in K; lia).
  destruct i as [|i], j as [|j]; [congruence| | |]; cbn [nth_error] in A, B.
  - injection A as ->. destruct (string_dec s s); [|congruence]. specialize (X _ B). lia.
  - injection B as ->. destruct (string_dec s s); [|congruence]. specialize (X _ A). lia.
  - specialize (IH i j ltac:(congruence) A B). destruct (string_dec a s); lia.
Qed.
Lemma two_places (L : list string) s i : nth_error L i = Some s -> 2 <= count_occ string_dec L s -> exists j, j <> i /\ nth_error L j = Some s.
Proof.
  revert i. induction L as [|a L IH]; intros i A B; [destruct i; discriminate|]. cbn [count_occ] in B. destruct i as [|i]; cbn [nth_error] in A.
  - injection A as ->. destruct (string_dec s s); [|congruence]. assert (K : In s L) by (apply (count_occ_In string_dec); lia).
    apply In_nth_error in K. destruct K as [j K]. exists (S j). split; [lia|exact K].
  - destruct (string_dec a s) as [->|_]; [exists 0; split; [lia|reflexivity]|]. destruct (IH i A B) as (j & D & K). exists (S j). split; [lia|exact K].
Qed.
Definition key_of (P : string -> bool) (x : base) : column := snd (fst (fin P x)).
Lemma keys_differ l : Forall (fun x : base => has_char "(" (snd (fst x)) = false) l ->
  (forall i j x y, i <> j -> nth_error l i = Some x -> nth_error l j = Some y -> snd (fst x) = snd (fst y) ->
     (e_building (fst (fst x)), e_instance (fst (fst x))) <> (e_building (fst (fst y)), e_instance (fst (fst y)))) ->
  NoDup (map (key_of (twice l)) l).
Proof.
  intros F H. apply NoDup_nth_error. intros i j Li E. rewrite map_length in Li. rewrite !nth_error_map in E.
  destruct (nth_error l i) as [[[m s] e]|] eqn:A; [|apply nth_error_None in A; lia]. destruct (nth_error l j) as [[[n t] f]|] eqn:B; [|discriminate].
  unfold key_of, fin in E. cbn [option_map fst snd] in E. injection E as E.
  destruct (Nat.eq_dec i j) as [|D]; [assumption|exfalso]. pose proof (H i j _ _ D A B) as HD. cbn [fst snd] in HD.
  assert (Fs : has_char "(" s = false) by (rewrite Forall_forall in F; exact (F _ (nth_error_In _ _ A))).
  assert (Ft : has_char "(" t = false) by (rewrite Forall_forall in F; exact (F _ (nth_error_In _ _ B))).
  destruct (twice l s) eqn:Ts, (twice l t) eqn:Tt.
  - apply suffix_inj in E; [|assumption|assumption]. destruct E as [E1 E2]. exact (HD E1 E2).
  - rewrite <- E, suffix_paren in Ft. discriminate.
  - rewrite E, suffix_paren in Fs. discriminate.
  - subst t. unfold twice in Ts. apply Nat.leb_gt in Ts. pose proof (count_two (map (fun x : base => snd (fst x)) l) s i j D) as K.
    rewrite !nth_error_map, A, B in K. specialize (K eq_refl eq_refl). lia.
Qed.
