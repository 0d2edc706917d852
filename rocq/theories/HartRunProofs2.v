(** Proofs about Hart's algorithm as a whole: training and disaggregation. *)
From Coq Require Import String QArith Qabs Sorted Lia Lqa.
From Verif Require Import Base HartModel SteadyModel SteadySpec SteadyCor ClusterModel HartSpec HartAssignProofs HartProofs HartRunModel HartRunSpec HartRunProofs.
Import List. Open Scope list_scope. Open Scope nat_scope.

(** ** Transitions of mains with one column *)

Lemma map2_length f a b : length (map2 f a b) = Nat.min (length a) (length b).
Proof. revert b. induction a as [|x a IH]; intros [|y b]; cbn; [reflexivity..|]. rewrite IH. reflexivity. Qed.

Lemma map2_same f (a b : vec) n : length a = n -> length b = n -> length (map2 f a b) = n.
Proof. intros A B. rewrite map2_length. unfold vec in *. rewrite A, B. apply Nat.min_id. Qed.

Definition wide (n : nat) (s : SteadyModel.st) : Prop :=
  length (s_est s) = n /\ length (s_last s) = n /\ Forall (fun x => length (snd x) = n) (s_trans s).
Lemma record_wide n noise s : wide n s -> wide n (record_edge noise s).
Proof.
  intros (A & B & C). unfold record_edge. destruct (any_above noise _); [|split; [|split]; assumption]. split; [exact A|]. split; [exact B|]. cbn [s_trans]. apply Forall_app. split; [exact C|].
  constructor; [|constructor]. cbn [snd]. unfold vsub. apply map2_same; assumption.
Qed.
Lemma step_wide n threshold noise s r : n <= 2 -> length (snd r) = n -> wide n s -> wide n (step threshold noise s r).
Proof.
  intros Hn Hr W. unfold step. set (this := firstn 2 (snd r)). assert (Lt : length this = n) by (unfold this; rewrite firstn_length; unfold vec in *; rewrite Hr; destruct n as [|[|[|n]]]; [reflexivity..|lia]).
  destruct (any_above threshold _) eqn:EA; cbn [andb].
  - destruct (s_ongoing s) eqn:EO; cbn [negb].
    + destruct W as (A & B & C). split; [|split]; [cbn [s_est]; apply map2_same; assumption|exact B|exact C].
    + destruct (record_wide n noise s W) as (A & B & C). split; [|split]; cbn [s_est s_last s_trans]; [apply map2_same; assumption|exact A|exact C].
  - destruct W as (A & B & C). split; [|split]; [cbn [s_est]; apply map2_same; assumption|exact B|exact C].
Qed.
Lemma transitions_wide cols rows threshold noise steady trans : Forall (fun r : row => length (snd r) = cols) rows ->
  find_steady_states cols rows threshold noise = Ok (steady, trans) -> Forall (fun x => length (snd x) = cols) trans.
Proof.
  intros F H. unfold find_steady_states in H. destruct rows as [|r0 rows]; [discriminate|]. destruct (2 <? cols) eqn:EC; [discriminate|]. apply Nat.ltb_ge in EC.
  assert (W : forall l s, Forall (fun r : row => length (snd r) = cols) l -> wide cols s -> wide cols (fold_left (step threshold noise) l s)).
  { induction l as [|r l IH]; intros s Fl Ws; [exact Ws|]. apply Forall_cons_iff in Fl. destruct Fl as [F1 F2]. cbn [fold_left]. apply IH; [exact F2|]. apply step_wide; assumption. }
  assert (I0 : wide cols (init cols (fst r0))) by (split; [apply repeat_length|split; [apply repeat_length|constructor]]).
  set (s := record_edge noise (fold_left (step threshold noise) (r0 :: rows) (init cols (fst r0)))) in *.
  destruct (record_wide cols noise _ (W _ _ F I0)) as (_ & _ & C). fold s in C.
  destruct (s_steady s) as [|[t1 power] sd]; [discriminate|]. destruct (s_trans s) as [|[t2 p2] td] eqn:ET; [discriminate|].
  destruct (any_above noise power && _); injection H as <- <-; [apply Forall_cons_iff in C; apply C|exact C].
Qed.

Lemma as_rows_times readings : map fst (as_rows readings) = map fst readings.
Proof. unfold as_rows. rewrite map_map. apply map_ext. reflexivity. Qed.

Lemma sorted_nodup l : StronglySorted Z.lt l -> NoDup l.
Proof.
  induction l as [|x l IH]; intros S; [constructor|]. apply StronglySorted_inv in S. destruct S as [S F]. constructor; [|apply IH; exact S].
  intros I. rewrite Forall_forall in F. specialize (F x I). lia.
Qed.

Lemma one_column readings threshold noise steady trans : (0 <= noise)%Q -> StronglySorted Z.lt (map fst readings) ->
  find_steady_states 1 (as_rows readings) threshold noise = Ok (steady, trans) ->
  NoDup (map fst trans) /\ Forall (in_time (map fst readings)) trans /\ readings <> [].
Proof.
  intros HN S H. assert (F : Forall (fun r : row => length (snd r) = 1) (as_rows readings)) by (apply Forall_forall; intros r I; apply in_map_iff in I; destruct I as (x & <- & _); reflexivity).
  pose proof (transitions_wide _ _ _ _ _ _ F H) as W. destruct (report_thm 1 threshold noise (as_rows readings) steady trans) as (_ & A & B & _); [lia|exact HN|exact F|rewrite as_rows_times; exact S|exact H|].
  split; [apply sorted_nodup; exact A|]. split.
  - apply Forall_forall. intros x I. rewrite Forall_forall in W, B. split.
    + specialize (W x I). cbv beta in W. destruct x as [u q]. cbn [snd] in *. destruct q as [|d1 [|d2 dr]]; [discriminate W|exists d1; reflexivity|discriminate W].
    + rewrite <- (as_rows_times readings). apply B. apply in_map. exact I.
  - intros ->. discriminate H.
Qed.

Lemma predict_readings readings threshold noise steady trans centroids : (0 <= noise)%Q -> StronglySorted Z.lt (map fst readings) ->
  find_steady_states 1 (as_rows readings) threshold noise = Ok (steady, trans) -> trans <> [] -> centroids <> [] ->
  exists cols, predict (map fst readings) trans centroids = Ok cols /\ all_follow trans centroids (map fst readings) cols.
Proof.
  intros HN S H NT NC. destruct (one_column _ _ _ _ _ HN S H) as (A & B & C).
  apply predict_ok; [apply sorted_nodup; exact S|exact NC|exact S|destruct readings; [contradiction|discriminate]|exact NT|exact A|exact B].
Qed.

(** ** Dictionaries *)

Lemma get_put_same {V} (d : list (string * V)) k v : get (put d k v) k = Some v.
Proof. induction d as [|[k' v'] d IH]; cbn; [rewrite String.eqb_refl; reflexivity|]. destruct (String.eqb k k') eqn:E; cbn; rewrite E; [reflexivity|exact IH]. Qed.
Lemma get_put_other {V} (d : list (string * V)) k k' v : k <> k' -> get (put d k v) k' = get d k'.
Proof.
  intros N. induction d as [|[k0 v0] d IH]; cbn.
  - destruct (String.eqb_spec k' k); [congruence|reflexivity].
  - destruct (String.eqb_spec k k0) as [->|D]; cbn.
    + destruct (String.eqb_spec k' k0); [congruence|reflexivity].
    + rewrite IH. reflexivity.
Qed.
Lemma keys_put {V} (d : list (string * V)) k v : map fst (put d k v) = if in_dec string_dec k (map fst d) then map fst d else map fst d ++ [k].
Proof.
  induction d as [|[k0 v0] d IH]; [reflexivity|]. cbn [put]. destruct (String.eqb_spec k k0) as [->|D].
  - destruct (in_dec string_dec k0 (map fst ((k0, v0) :: d))) as [_|N]; [reflexivity|]. exfalso. apply N. left. reflexivity.
  - cbn [map fst]. rewrite IH. destruct (in_dec string_dec k (map fst d)) as [I|N].
    + destruct (in_dec string_dec k (k0 :: map fst d)) as [_|N']; [reflexivity|]. exfalso. apply N'. right. exact I.
    + destruct (in_dec string_dec k (k0 :: map fst d)) as [[->|I]|_]; [contradiction|contradiction|]. reflexivity.
Qed.

(** ** Matching *)

Lemma error_sum n col truth : n = Nat.min (length col) (length truth) -> fold_right Qplus 0%Q (map squared (combine (firstn n col) (firstn n truth))) = error col truth.
Proof.
  revert n truth. induction col as [|x col IH]; intros n truth E.
  - cbn in E. subst n. reflexivity.
  - destruct truth as [|y truth]; [cbn in E; subst n; reflexivity|]. cbn [length Nat.min] in E. subst n. cbn [firstn combine map fold_right error]. rewrite (IH _ truth eq_refl). reflexivity.
Qed.

Lemma first_least_scale (f g : list Z -> Q) n cols j : 0 < n -> (forall c, In c cols -> f c = (g c / inject_Z (Z.of_nat n))%Q) -> first_least (map f cols) j -> first_least (map g cols) j.
Proof.
  intros Hn E (x & Ex & Hx). rewrite nth_error_map in Ex. destruct (nth_error cols j) as [c|] eqn:Ec; [|discriminate]. injection Ex as Ex.
  assert (P : (0 < inject_Z (Z.of_nat n))%Q) by (change 0%Q with (inject_Z 0); rewrite <- Zlt_Qlt; lia).
  exists (g c). split; [rewrite nth_error_map, Ec; reflexivity|]. intros i y Hy. rewrite nth_error_map in Hy. destruct (nth_error cols i) as [c'|] eqn:Ec'; [|discriminate]. injection Hy as <-.
  destruct (Hx i (f c')) as [A B]; [rewrite nth_error_map, Ec'; reflexivity|]. subst x.
  rewrite (E c) in A, B by (apply nth_error_In in Ec; exact Ec). rewrite (E c') in A, B by (apply nth_error_In in Ec'; exact Ec').
  assert (M : forall a b, (a / inject_Z (Z.of_nat n) <= b / inject_Z (Z.of_nat n) <-> a <= b)%Q).
  { intros a b. unfold Qdiv. rewrite Qmult_le_r; [reflexivity|]. apply Qinv_lt_0_compat. exact P. }
  split.
  - intros L. specialize (A L). apply Qnot_le_lt. intros C. apply M in C. apply (Qlt_not_le _ _ A). exact C.
  - apply M. exact B.
Qed.

Lemma min_rmse_spec rows cols truth j : Forall (fun col => length col = rows) cols -> min_rmse_column rows cols truth = Ok j -> best_match cols truth j.
Proof.
  intros F H. unfold min_rmse_column in H. set (n := Nat.min rows (length truth)) in *. destruct (Nat.eqb_spec n 0); [discriminate|].
  destruct cols as [|c0 cols0] eqn:EC; [discriminate|]. rewrite <- EC in *.
  destruct (idxmin_spec (map (fun col => mean_squared n col truth) cols)) as (i & Ei & Hi); [rewrite EC; discriminate|]. rewrite H in Ei. injection Ei as <-.
  apply (first_least_scale (fun col => mean_squared n col truth) (fun col => error col truth) n); [lia| |exact Hi].
  intros c I. unfold mean_squared. rewrite Forall_forall in F. rewrite error_sum; [reflexivity|]. unfold n. rewrite (F c I). reflexivity.
Qed.

Lemma matches_spec rows cols apps : Forall (fun col => length col = rows) cols -> NoDup (map fst apps) -> forall d m, foldM (match_appliance rows cols) apps d = Ok m ->
  (forall name, ~ In name (map fst apps) -> get m name = get d name) /\
  forall name truths, In (name, truths) apps -> exists truth rest j, truths = truth :: rest /\ get m name = Some j /\ best_match cols truth j.
Proof.
  intros F. induction apps as [|[a ts] apps IH]; intros N d m H.
  - injection H as <-. split; [reflexivity|]. intros name truths [].
  - cbn in N. apply NoDup_cons_iff in N. destruct N as [N1 N2]. cbn [foldM match_appliance snd fst] in H. unfold match_appliance in H at 1. cbn [snd fst] in H. destruct ts as [|truth ts]; [discriminate|].
    destruct (min_rmse_column rows cols truth) as [j|] eqn:EJ; [|discriminate]. cbn [bind] in H. destruct (IH N2 _ _ H) as [A B]. split.
    + intros name NI. cbn in NI. rewrite A by tauto. apply get_put_other. tauto.
    + intros name truths [I|I]; [|apply B; exact I]. injection I as <- <-. exists truth, ts, j. split; [reflexivity|]. split; [rewrite (A a N1); apply get_put_same|apply (min_rmse_spec rows); assumption].
Qed.

(** ** Training *)

Section Train.
  Variable ms : list (list Q) -> list (list Q).

  Lemma train_thm p s column readings rest apps s' : (0 <= p_noise p)%Q -> StronglySorted Z.lt (map fst readings) -> NoDup (map fst apps) ->
    partial_fit ms p s ((column, readings) :: rest) apps = (s', None) ->
    exists steady trans pairs table centroids cols matches,
      find_steady_states 1 (as_rows readings) (p_threshold p) (p_noise p) = Ok (steady, trans) /\ trans <> [] /\
      pair column (p_buffer p) (p_min_tol p) (p_percent p) (p_large p) 1 trans = Ok pairs /\
      hart_clusters ms (map as_pair pairs) [ptype_of column] = Ok table /\ centroids = map snd (concat table) /\ centroids <> [] /\
      all_follow trans centroids (map fst readings) cols /\
      s' = mkHart (Some (map fst apps)) (Some (p_threshold p, p_noise p)) (Some centroids) (Some matches) /\
      forall name truths, In (name, truths) apps -> exists truth later j, truths = truth :: later /\ get matches name = Some j /\ best_match cols truth j.
  Proof.
    intros HN S N H. unfold partial_fit in H. fold (as_rows readings) in H. destruct (find_steady_states 1 (as_rows readings) (p_threshold p) (p_noise p)) as [[steady trans]|] eqn:EF; [|discriminate].
    destruct trans as [|tr trs] eqn:ET; [destruct column; discriminate|]. rewrite <- ET in *. assert (NT : trans <> []) by (rewrite ET; discriminate).
    replace (match trans with [] => 0 | _ => 1 end) with 1 in H by (rewrite ET; reflexivity).
    destruct (pair column (p_buffer p) (p_min_tol p) (p_percent p) (p_large p) 1 trans) as [pairs|] eqn:EP; [|discriminate].
    destruct (hart_clusters ms (map as_pair pairs) [ptype_of column]) as [table|] eqn:EC; [|discriminate].
    remember (map snd (concat table)) as centroids eqn:EQ.
    destruct (predict (map fst readings) trans centroids) as [cols|] eqn:EPr; [|discriminate].
    destruct (foldM (match_appliance (length (map fst readings)) cols) apps []) as [matches|] eqn:EM; [|discriminate]. cbn in H. injection H as <-.
    assert (NC : centroids <> []).
    { intros C. rewrite C in EPr. destruct (one_column _ _ _ _ _ HN S EF) as (_ & B & NR). unfold predict in EPr. rewrite ET in EPr, B. apply Forall_cons_iff in B. destruct B as [[[d Ed] I] _].
      destruct tr as [u q]. cbn in Ed, I. subst q. cbn [foldM] in EPr. unfold mark_transition in EPr at 1. cbn [fst snd] in EPr.
      destruct (map fst readings) as [|f0 fr] eqn:EI; [destruct I|]. rewrite <- EI in *. destruct (last_opt_some (map fst readings)) as [lst EL]; [rewrite EI; discriminate|]. rewrite EL in EPr.
      assert ((f0 <= u)%Z) by (rewrite EI in S, I; apply StronglySorted_inv in S; destruct S as [_ F]; rewrite Forall_forall in F; destruct I as [<-|I]; [lia|specialize (F _ I); lia]).
      pose proof (sorted_last _ lst u S EL I). destruct (Z.ltb_spec u f0); [lia|]. destruct (Z.ltb_spec lst u); [lia|]. discriminate EPr. }
    destruct (predict_readings _ _ _ _ _ centroids HN S EF NT NC) as (cols' & E' & AF). rewrite EPr in E'. injection E' as <-.
    assert (FC : Forall (fun col => length col = length (map fst readings)) cols).
    { apply Forall_forall. intros col I. apply In_nth_error in I. destruct I as [i Hi]. destruct AF as [L AF]. destruct (nth_error centroids i) as [c|] eqn:Ec; [|apply nth_error_None in Ec; assert (i < length cols) by (apply nth_error_Some; congruence); lia].
      apply (AF i c col Ec Hi). }
    destruct (matches_spec _ _ _ FC N _ _ EM) as [_ M].
    exists steady, trans, pairs, table, centroids, cols, matches. repeat (split; [first [reflexivity|assumption]|]). exact M.
  Qed.

  (** Training again forgets what was learnt before; only the first house counts. *)
  Lemma train_forgets p s1 s2 first rest1 rest2 apps s' : partial_fit ms p s1 (first :: rest1) apps = (s', None) -> partial_fit ms p s2 (first :: rest2) apps = (s', None).
  Proof.
    unfold partial_fit. destruct first as [column readings]. cbn [h_appliances h_levels h_centroids h_matches]. destruct (find_steady_states _ _ _ _) as [[steady trans]|]; [|discriminate].
    destruct (pair _ _ _ _ _ _ _) as [pairs|]; [|discriminate]. destruct (hart_clusters _ _ _) as [table|]; [|discriminate].
    destruct (predict _ _ _) as [cols|]; [|discriminate]. destruct (foldM _ _ _) as [matches|]; [|discriminate]. intros H. exact H.
  Qed.
  Lemma train_first_house p s first rest1 rest2 apps1 apps2 : Forall2 (fun a b => fst a = fst b /\ hd_error (snd a) = hd_error (snd b)) apps1 apps2 ->
    partial_fit ms p s (first :: rest1) apps1 = partial_fit ms p s (first :: rest2) apps2.
  Proof.
    intros H. assert (E : map fst apps1 = map fst apps2) by (induction H as [|a b l l' [H1 _] _ IH]; [reflexivity|cbn; congruence]).
    assert (M : forall n cols d, foldM (match_appliance n cols) apps1 d = foldM (match_appliance n cols) apps2 d).
    { intros n cols. clear E. induction H as [|[a ta] [b tb] l l' [H1 H2] _ IH]; intros d; [reflexivity|]. cbn in H1, H2. subst b. cbn [foldM].
      replace (match_appliance n cols d (a, tb)) with (match_appliance n cols d (a, ta)).
      - destruct (match_appliance n cols d (a, ta)) as [d'|]; [apply IH|reflexivity].
      - unfold match_appliance. cbn [fst snd]. destruct ta, tb; try discriminate H2; [reflexivity|injection H2 as ->; reflexivity]. }
    unfold partial_fit. destruct first as [column readings]. rewrite E. destruct (find_steady_states _ _ _ _) as [[steady trans]|]; [|reflexivity].
    destruct (pair _ _ _ _ _ _ _) as [pairs|]; [|reflexivity]. destruct (hart_clusters _ _ _) as [table|]; [|reflexivity].
    destruct (predict _ _ _) as [cols|]; [|reflexivity]. rewrite M. reflexivity.
  Qed.
End Train.

(** ** Disaggregation *)

Lemma filter_app {A} (f : A -> bool) l l' : filter f (l ++ l') = filter f l ++ filter f l'.
Proof. induction l as [|x l IH]; [reflexivity|]. cbn. destruct (f x); rewrite IH; reflexivity. Qed.
Lemma filter_comm {A} (f g : A -> bool) l : filter f (filter g l) = filter g (filter f l).
Proof. induction l as [|x l IH]; [reflexivity|]. cbn. destruct (g x) eqn:G, (f x) eqn:F; cbn; rewrite ?G, ?F, IH; reflexivity. Qed.

Definition unseen (seen : list string) (y : string) : bool := if in_dec string_dec y seen then false else true.

Lemma unseen_in seen y : In y seen -> unseen seen y = false.
Proof. intros I. unfold unseen. destruct (in_dec string_dec y seen); [reflexivity|contradiction]. Qed.
Lemma unseen_out seen y : ~ In y seen -> unseen seen y = true.
Proof. intros I. unfold unseen. destruct (in_dec string_dec y seen); [contradiction|reflexivity]. Qed.
Lemma unseen_drop seen a l : In a seen -> filter (unseen seen) (filter (fun y => negb (String.eqb a y)) l) = filter (unseen seen) l.
Proof.
  intros I. induction l as [|y l IH]; [reflexivity|]. cbn. destruct (String.eqb_spec a y) as [<-|D]; cbn; [rewrite (unseen_in _ _ I); exact IH|]. rewrite IH. reflexivity.
Qed.
Lemma unseen_snoc seen a l : filter (unseen (seen ++ [a])) l = filter (unseen seen) (filter (fun y => negb (String.eqb a y)) l).
Proof.
  induction l as [|y l IH]; [reflexivity|]. cbn. destruct (String.eqb_spec a y) as [<-|D]; cbn.
  - rewrite unseen_in by (apply in_app_iff; right; left; reflexivity). exact IH.
  - rewrite IH. replace (unseen (seen ++ [a]) y) with (unseen seen y); [reflexivity|]. destruct (in_dec string_dec y seen) as [I|N].
    + rewrite !unseen_in; [reflexivity|apply in_app_iff; left; exact I|exact I].
    + rewrite !unseen_out; [reflexivity| |exact N]. intros C. apply in_app_iff in C. destruct C as [C|[C|[]]]; contradiction.
Qed.

Lemma outputs_ok (matches : list (string * nat)) (cols : list (list Z)) apps : (forall a, In a apps -> exists j, get matches a = Some j /\ j < length cols) ->
  forall d, exists out, foldM (fun d a =>
          do matches <- attr (Some matches);
          do j <- match get matches a with Some j => Ok j | None => Err KeyError end;
          match nth_error cols j with Some col => Ok (put d a col) | None => Err KeyError end) apps d = Ok out /\
    map fst out = map fst d ++ filter (unseen (map fst d)) (distinct apps) /\
    (forall a, ~ In a apps -> get out a = get d a) /\
    forall a, In a apps -> exists j col, get matches a = Some j /\ nth_error cols j = Some col /\ get out a = Some col.
Proof.
  induction apps as [|a apps IH]; intros K d.
  - exists d. split; [reflexivity|]. split; [cbn; rewrite app_nil_r; reflexivity|]. split; [reflexivity|]. intros a [].
  - destruct (K a (or_introl eq_refl)) as (j & Ej & Lj). destruct (nth_error cols j) as [col|] eqn:Ec; [|apply nth_error_None in Ec; lia].
    destruct (IH (fun b I => K b (or_intror I)) (put d a col)) as (out & E & Ks & O & G). exists out. cbn [foldM attr bind]. rewrite Ej. cbn [bind]. rewrite Ec. cbn [bind attr] in *. split; [exact E|].
    split; [|split].
    + rewrite Ks, keys_put. cbn [distinct filter]. destruct (in_dec string_dec a (map fst d)) as [I|NI].
      * rewrite (unseen_in _ _ I), unseen_drop by exact I. reflexivity.
      * rewrite (unseen_out _ _ NI), <- app_assoc. f_equal. cbn [List.app]. f_equal. apply unseen_snoc.
    + intros b NI. cbn in NI. rewrite O by tauto. apply get_put_other. tauto.
    + intros b I. destruct (in_dec string_dec b apps) as [I'|NI]; [apply G; exact I'|]. destruct I as [<-|I]; [|contradiction]. exists j, col. split; [exact Ej|]. split; [exact Ec|]. rewrite (O a NI). apply get_put_same.
Qed.

Lemma filter_all {A} (f : A -> bool) l : (forall x, In x l -> f x = true) -> filter f l = l.
Proof. induction l as [|x l IH]; intros H; [reflexivity|]. cbn. rewrite (H x (or_introl eq_refl)), IH by (intros y I; apply H; right; exact I). reflexivity. Qed.

Lemma disaggregate_thm apps threshold noise centroids matches readings steady trans :
  (0 <= noise)%Q -> StronglySorted Z.lt (map fst readings) -> centroids <> [] ->
  (forall a, In a apps -> exists j, get matches a = Some j /\ j < length centroids) ->
  find_steady_states 1 (as_rows readings) threshold noise = Ok (steady, trans) -> trans <> [] ->
  exists cols out, all_follow trans centroids (map fst readings) cols /\
    disaggregate_chunk (mkHart (Some apps) (Some (threshold, noise)) (Some centroids) (Some matches)) [(1, as_rows readings)] = Ok [(map fst readings, out)] /\
    map fst out = distinct apps /\
    forall a, In a apps -> exists j col, get matches a = Some j /\ nth_error cols j = Some col /\ get out a = Some col.
Proof.
  intros HN S NC K EF NT. destruct (predict_readings _ _ _ _ _ centroids HN S EF NT NC) as (cols & EP & AF). destruct AF as [L AF].
  destruct (outputs_ok matches cols apps (fun a I => match K a I with ex_intro _ j (conj A B) => ex_intro _ j (conj A (eq_ind_r (fun n => j < n) B L)) end) []) as (out & EO & KO & _ & GO).
  exists cols, out. split; [split; assumption|]. split.
  - unfold disaggregate_chunk. cbn [foldM h_levels h_centroids h_appliances h_matches attr bind fst snd]. rewrite EF. cbn [bind snd]. rewrite as_rows_times, EP. cbn [bind].
    unfold disaggregate_chunk in *. cbn [attr bind] in EO. rewrite EO. reflexivity.
  - split; [|exact GO]. rewrite KO. cbn. apply filter_all. intros x _. reflexivity.
Qed.

(** Without a transition the prediction fails. *)
Lemma quiet_thm apps threshold noise centroids matches cols0 rows0 steady rest : find_steady_states cols0 rows0 threshold noise = Ok (steady, []) ->
  disaggregate_chunk (mkHart apps (Some (threshold, noise)) (Some centroids) matches) ((cols0, rows0) :: rest) = Err UnboundLocalError.
Proof.
  intros H. unfold disaggregate_chunk. cbn [foldM h_levels h_centroids attr bind fst snd]. rewrite H. cbn [bind snd].
  assert (NR : map fst rows0 <> []) by (destruct rows0; [discriminate|discriminate]).
  unfold predict. cbn [foldM bind].
  assert (M : forall cs : list Q, exists r, mapM (fun p : list Z * Q => match last_opt (fst p) with None => Err IndexError | Some prev => assign_power 0%Z (truncate (snd p)) (fst p) prev end)
    (combine (map (fun _ => map (fun _ => (-1)%Z) (map fst rows0)) cs) cs) = Ok r).
  { induction cs as [|c cs [r IH]]; [exists []; reflexivity|]. cbn [map combine mapM fst snd]. destruct (last_opt_some (map (fun _ : Z => (-1)%Z) (map fst rows0))) as [prev EP]; [intros C; apply NR; apply map_eq_nil in C; exact C|].
    rewrite EP. destruct (assign_values 0%Z (truncate c) (map (fun _ : Z => (-1)%Z) (map fst rows0)) prev) as (col & -> & _). cbn [bind]. rewrite IH. cbn. eexists. reflexivity. }
  destruct (M centroids) as [r ->]. cbn [bind last_opt]. destruct (map fst rows0); [contradiction|]. reflexivity.
Qed.

(** Only the last frame is predicted. *)
Lemma last_frame s mains r : disaggregate_chunk s mains = Ok r -> exists cols rows out, last_opt mains = Some (cols, rows) /\ r = [(map fst rows, out)].
Proof.
  unfold disaggregate_chunk. destruct mains as [|[c0 r0] rest] eqn:EM; [discriminate|]. rewrite <- EM. set (f := fun _ _ => _).
  assert (G : forall l acc t, foldM f l acc = Ok t -> match last_opt l with None => t = acc | Some (c, rows) => exists cols, t = Some (map fst rows, cols) end).
  { induction l as [|[c rows] l IH]; intros acc t H; [injection H as <-; reflexivity|]. cbn [foldM] in H. unfold f in H at 1. try rewrite EM in H. cbn [fst snd] in H.
    destruct (attr (h_levels s)) as [lv|]; [|discriminate]. cbn [bind] in H. destruct (find_steady_states c0 r0 (fst lv) (snd lv)) as [x|]; [|discriminate]. cbn [bind] in H.
    destruct (attr (h_centroids s)) as [cs|]; [|discriminate]. cbn [bind] in H. destruct (predict (map fst rows) (snd x) cs) as [cols|]; [|discriminate]. cbn [bind] in H.
    specialize (IH _ _ H). destruct l as [|[c' rows'] l]; [exists cols; exact IH|]. change (last_opt ((c, rows) :: (c', rows') :: l)) with (last_opt ((c', rows') :: l)). destruct (last_opt_some ((c', rows') :: l) ltac:(discriminate)) as [[c2 r2] E2]. rewrite E2 in IH |- *. exact IH. }
  intros H. destruct (foldM f mains None) as [t|] eqn:EF; [|discriminate]. cbn [bind] in H. specialize (G _ _ _ EF). destruct (last_opt mains) as [[c rows]|] eqn:EL; [|rewrite EM in EL; destruct (last_opt_some ((c0, r0) :: rest) ltac:(discriminate)) as [x X]; congruence].
  destruct G as [cols ->]. destruct (attr (h_appliances s)) as [apps|]; [|discriminate]. cbn [bind] in H. destruct (foldM _ apps []) as [out|]; [|discriminate]. injection H as <-. exists c, rows, out. split; reflexivity.
Qed.

Lemma train_quiet ms p s column readings rest apps steady :
  find_steady_states 1 (map (fun r => (fst r, [snd r])) readings) (p_threshold p) (p_noise p) = Ok (steady, []) ->
  partial_fit ms p s ((column, readings) :: rest) apps =
    (mkHart (Some (map fst apps)) (Some (p_threshold p, p_noise p)) (h_centroids s) (h_matches s), Some AttributeError).
Proof. intros E. cbn [partial_fit]. rewrite E. reflexivity. Qed.

Lemma heads (t : ptype) (cs : list (list Q)) : map snd (concat (map (fun c => combine [t] c) cs)) = flat_map (firstn 1) cs.
Proof. induction cs as [|[|x c] cs IH]; [reflexivity|exact IH|]. cbn [map combine concat List.app flat_map firstn snd]. f_equal. exact IH. Qed.
Lemma train_centroids ms p s column readings rest apps s' : (0 <= p_noise p)%Q -> StronglySorted Z.lt (map fst readings) -> NoDup (map fst apps) ->
  partial_fit ms p s ((column, readings) :: rest) apps = (s', None) ->
  exists steady trans pairs points,
    find_steady_states 1 (as_rows readings) (p_threshold p) (p_noise p) = Ok (steady, trans) /\
    pair column (p_buffer p) (p_min_tol p) (p_percent p) (p_large p) 1 trans = Ok pairs /\
    Forall2 sized pairs points /\ points <> [] /\ h_centroids s' = Some (flat_map (firstn 1) (ms points)).
Proof.
  intros HN S N H. destruct (train_thm ms p s column readings rest apps s' HN S N H) as (steady & trans & pairs & table & centroids & cols & matches & EF & NT & EP & EC & EQ & _ & _ & -> & _).
  destruct (one_column _ _ _ _ _ HN S EF) as (_ & B & _).
  exists steady, trans, pairs, (map (fun q => [feature (as_pair q) (ptype_of column)]) pairs). split; [exact EF|]. split; [exact EP|].
  assert (FT : exists t, feature_types [ptype_of column] = [t] /\ t = ptype_of column /\ pairs <> []).
  { unfold hart_clusters in EC. unfold feature_types in *. destruct (ptype_of column) eqn:PT; cbn in EC |- *; try discriminate EC; (destruct pairs; [discriminate EC|]; eexists; repeat split; discriminate). }
  destruct FT as (t & FT & -> & NP). split; [|split; [destruct pairs; [contradiction|discriminate]|]].
  - assert (NB : exists b, new_buffer column (p_buffer p) (p_min_tol p) (p_percent p) (p_large p) 1 = Ok b).
    { unfold pair in EP. destruct (new_buffer column (p_buffer p) (p_min_tol p) (p_percent p) (p_large p) 1) as [b|]; [exists b; reflexivity|discriminate EP]. }
    destruct NB as [b NB]. destruct (HartProofs.pairs_thm column (p_buffer p) (p_min_tol p) (p_percent p) (p_large p) 1 trans b NB) as (pairs' & P & EP' & F & _).
    { eapply Forall_impl; [|exact B]. intros [u v] [[d E] _]. cbn [snd] in E |- *. rewrite E. reflexivity. }
    rewrite EP in EP'. injection EP' as <-. rewrite Forall_forall in B. clear - F B. induction F as [|i q P pairs [A A'] F IH]; constructor; [|exact IH].
    apply nth_error_In in A, A'. destruct q as [[u v] [u' v']]. destruct (B _ A) as [[x X] _]. destruct (B _ A') as [[y Y] _]. cbn [fst snd] in X, Y. subst v v'. exists x, y. split; [reflexivity|]. split; reflexivity.
  - cbn [h_centroids]. f_equal. rewrite EQ. unfold hart_clusters in EC. rewrite FT in EC. destruct pairs; [contradiction|]. cbn [length Nat.eqb Nat.ltb Nat.leb andb] in EC. injection EC as <-. rewrite map_map. exact (heads (ptype_of column) _).
Qed.
