From Coq Require Import String Ascii QArith Decimal DecimalFacts DecimalPos DecimalN.
From Verif Require Import Base NearestModel PersistModel PersistSpec.
Import List. Open Scope list_scope. Open Scope Z_scope.

Lemma text_eqb_eq a b : text_eqb a b = true <-> a = b.
Proof.
  revert b. induction a as [|x a IH]; intros [|y b]; cbn; split; try discriminate; try reflexivity.
  - intros E. apply andb_true_iff in E. destruct E as [E1 E2]. apply Z.eqb_eq in E1. apply IH in E2. congruence.
  - intros [= -> ->]. rewrite Z.eqb_refl. cbn. now apply IH.
Qed.
Lemma text_eqb_refl a : text_eqb a a = true.
Proof. now apply text_eqb_eq. Qed.
Lemma text_eqb_neq a b : a <> b -> text_eqb a b = false.
Proof. intros N. destruct (text_eqb a b) eqn:E; [|reflexivity]. apply text_eqb_eq in E. contradiction. Qed.
Lemma dput_fresh {A} (d : list (text * A)) k v : ~ In k (map fst d) -> dput d k v = d ++ [(k, v)].
Proof.
  induction d as [|[k' v'] d IH]; cbn; intros N; [reflexivity|]. rewrite text_eqb_neq by tauto. rewrite IH by tauto. reflexivity.
Qed.
Lemma dget_dput {A} (d : list (text * A)) k v : dget (dput d k v) k = Some v.
Proof. induction d as [|[k' v'] d IH]; cbn; [now rewrite text_eqb_refl|]. destruct (text_eqb k' k) eqn:E; cbn; rewrite E; auto. Qed.
Lemma dget_dput_other {A} (d : list (text * A)) k v k2 : k <> k2 -> dget (dput d k v) k2 = dget d k2.
Proof.
  intros N. induction d as [|[k' v'] d IH]; cbn; [now rewrite text_eqb_neq|]. destruct (text_eqb k' k) eqn:E; cbn.
  - apply text_eqb_eq in E. subst. now rewrite text_eqb_neq by exact N.
  - now rewrite IH.
Qed.
Lemma dput_keys {A} (d : list (text * A)) k v : map fst (dput d k v) = map fst d \/ (~ In k (map fst d) /\ map fst (dput d k v) = map fst d ++ [k]).
Proof.
  destruct (in_dec (list_eq_dec Z.eq_dec) k (map fst d)) as [I|N].
  - left. induction d as [|[k' v'] d IH]; [destruct I|]. cbn. destruct (text_eqb k' k) eqn:E; cbn; [reflexivity|]. rewrite IH; [reflexivity|]. cbn in I. destruct I as [->|I]; [|exact I]. rewrite text_eqb_refl in E. discriminate.
  - right. split; [exact N|]. rewrite dput_fresh by exact N. now rewrite map_app.
Qed.

(** ** Strings *)
Lemma hexv_hexc d : 0 <= d < 16 -> hexv (hexc d) = Some d.
Proof. intros B. unfold hexv, hexc. destruct (d <? 10) eqn:E; repeat match goal with |- context [if ?b then _ else _] => destruct b eqn:?; try lia end; f_equal; lia. Qed.
Lemma step_hex acc n v p s d : 0 <= d < 16 -> step (InString acc (Hex (S (S n)) v) p s) (hexc d) = InString acc (Hex (S n) (v * 16 + d)) p s.
Proof. intros B. unfold step, in_string. now rewrite hexv_hexc. Qed.
Lemma step_hex1 acc v p s d : 0 <= d < 16 -> step (InString acc (Hex 1 v) p s) (hexc d) = InString (add_unit acc (v * 16 + d)) Plain p s.
Proof. intros B. unfold step, in_string. now rewrite hexv_hexc. Qed.
Lemma scan_hex n acc p s : 0 <= n < 65536 -> fold_left step (92 :: 117 :: hex4 n) (InString acc Plain p s) = InString (add_unit acc n) Plain p s.
Proof.
  intros B. unfold hex4. cbn [fold_left]. change (step (step (InString acc Plain p s) 92) 117) with (InString acc (Hex 4 0) p s).
  rewrite !step_hex, step_hex1 by (apply Z.mod_pos_bound; lia). do 2 f_equal. Z.to_euclidean_division_equations. lia.
Qed.
Lemma scan_esc c acc p s : character c -> fold_left step (esc c) (InString acc Plain p s) = InString (c :: acc) Plain p s.
Proof.
  intros [B N]. unfold esc.
  destruct (c =? 34) eqn:E1; [replace c with 34 by lia; reflexivity|]. destruct (c =? 92) eqn:E2; [replace c with 92 by lia; reflexivity|].
  destruct (c =? 10) eqn:E3; [replace c with 10 by lia; reflexivity|]. destruct (c =? 13) eqn:E4; [replace c with 13 by lia; reflexivity|].
  destruct (c =? 9) eqn:E5; [replace c with 9 by lia; reflexivity|]. destruct (c =? 12) eqn:E6; [replace c with 12 by lia; reflexivity|].
  destruct (c =? 8) eqn:E7; [replace c with 8 by lia; reflexivity|].
  destruct ((32 <=? c) && (c <=? 126)) eqn:E8; [cbn; rewrite E1, E2; replace (c <? 32) with false by lia; reflexivity|].
  destruct (c <? 65536) eqn:E9.
  - rewrite scan_hex by lia. f_equal. unfold add_unit. destruct acc as [|h r]; [reflexivity|]. replace ((56320 <=? c) && (c <=? 57343) && (55296 <=? h) && (h <=? 56319)) with false by lia. reflexivity.
  - set (n := c - 65536). assert (0 <= n < 1048576) by lia. change (92 :: 117 :: hex4 (55296 + n / 1024 mod 1024) ++ 92 :: 117 :: hex4 (56320 + n mod 1024)) with ((92 :: 117 :: hex4 (55296 + n / 1024 mod 1024)) ++ (92 :: 117 :: hex4 (56320 + n mod 1024))).
    rewrite fold_left_app. assert (0 <= n / 1024 mod 1024 < 1024) by (apply Z.mod_pos_bound; lia). assert (0 <= n mod 1024 < 1024) by (apply Z.mod_pos_bound; lia). rewrite !scan_hex by lia.
    f_equal. set (hi := 55296 + n / 1024 mod 1024). set (lo := 56320 + n mod 1024).
    assert (A1 : add_unit acc hi = hi :: acc). { unfold add_unit. destruct acc as [|h r]; [reflexivity|]. replace (56320 <=? hi) with false by (subst hi; lia). reflexivity. }
    rewrite A1. unfold add_unit. replace ((56320 <=? lo) && (lo <=? 57343) && (55296 <=? hi) && (hi <=? 56319)) with true by (subst hi lo; lia). f_equal. subst hi lo.
    assert (n / 1024 < 1024) by (apply Z.div_lt_upper_bound; lia). assert (0 <= n / 1024) by (apply Z.div_pos; lia). rewrite (Z.mod_small (n / 1024)) by lia. pose proof (Z.div_mod n 1024). lia.
Qed.
Lemma scan_chars t acc p s : name t -> fold_left step (flat_map esc t) (InString acc Plain p s) = InString (rev t ++ acc) Plain p s.
Proof.
  intros B. revert acc. induction B as [|c t B _ IH]; intros acc; [reflexivity|]. cbn [flat_map]. rewrite fold_left_app, scan_esc by exact B. rewrite IH. cbn [rev]. now rewrite <- app_assoc.
Qed.
Lemma scan_quoted t p s : name t -> fold_left step (flat_map esc t ++ [34]) (InString [] Plain p s) = close (rev t) p s.
Proof. intros B. rewrite fold_left_app, scan_chars by exact B. rewrite app_nil_r. reflexivity. Qed.

(** ** Integers *)
Lemma scan_digits neg s d : forall p, fold_left step (digits d) (InInt neg (Some (Zpos p)) s) = InInt neg (Some (Zpos (Pos.of_uint_acc d p))) s.
Proof.
  assert (K : forall c p q, Zpos q = Zpos p * 10 + (c - 48) -> 48 <= c <= 57 -> step (InInt neg (Some (Zpos p)) s) c = InInt neg (Some (Zpos q)) s).
  { intros c p q E B. unfold step. replace ((48 <=? c) && (c <=? 57)) with true by lia. replace (Zpos p =? 0) with false by lia. now rewrite E. }
  induction d; intros p; [reflexivity|..]; cbn [digits fold_left]; (erewrite K; [apply IHd|cbn [Pos.of_uint_acc]; lia|lia]).
Qed.
Lemma nozero p l : Pos.to_uint p <> D0 l.
Proof.
  intros E. pose proof (DecimalPos.Unsigned.of_to p) as H. pose proof (DecimalPos.Unsigned.to_of (Pos.to_uint p)) as K. rewrite H in K. cbn in K. rewrite E in K. unfold unorm in K. cbn in K.
  destruct (nzhead l) eqn:EN; try discriminate; [|apply (nzhead_nonzero l u) in EN; exact EN]. injection K as ->. rewrite E in H. discriminate.
Qed.
Lemma scan_nat neg s n st : st = InInt neg None s \/ (neg = false /\ st = Value s) -> fold_left step (digits (N.to_uint n)) st = InInt neg (Some (Z.of_N n)) s.
Proof.
  intros HS. destruct n as [|p]; [destruct HS as [->|[-> ->]]; reflexivity|]. cbn [N.to_uint]. pose proof (DecimalPos.Unsigned.of_to p) as H. pose proof (nozero p) as NZ.
  destruct (Pos.to_uint p) as [|l|l|l|l|l|l|l|l|l|l]; [discriminate|exfalso; eapply NZ; reflexivity|..]; cbn in H; injection H as H; cbn [digits fold_left];
  (match goal with |- fold_left _ _ (step _ ?c) = _ => replace (step st c) with (InInt neg (Some (c - 48)) s) by (destruct HS as [->|[-> ->]]; reflexivity) end);
  (match goal with |- context [Some (?c - 48)] => let v := eval vm_compute in (c - 48) in change (c - 48) with v end); rewrite scan_digits, H; reflexivity.
Qed.
Definition int_state (z : Z) (s : stack) : scan := InInt (z <? 0) (Some (Z.abs z)) s.
Lemma scan_int z s : fold_left step (int_text z) (Value s) = int_state z s.
Proof.
  unfold int_text, int_state. destruct (z <? 0) eqn:E.
  - cbn [fold_left]. rewrite (scan_nat true s) by (left; reflexivity). rewrite N2Z.inj_abs_N. reflexivity.
  - rewrite (scan_nat false s) by (right; auto). rewrite N2Z.inj_abs_N. reflexivity.
Qed.
Lemma int_after z s c : ~ 48 <= c <= 57 -> step (int_state z s) c = after (JInt z) s c.
Proof.
  intros B. unfold int_state, step. replace ((48 <=? c) && (c <=? 57)) with false by lia. do 2 f_equal. destruct (z <? 0) eqn:E; lia.
Qed.

(** ** Models *)
Definition jentry (e : text * mean_model) : text * json := (fst e, JObj [(lit "sum", JInt (fst (snd e))); (lit "n_elem", JInt (Z.of_nat (snd (snd e))))]).
Lemma scan_entry e d s st : name (fst e) -> st = First d s \/ st = Next d s -> fold_left step (entry e) st = After (snd (jentry e)) ((d, fst e) :: s).
Proof.
  intros B HS. unfold entry, quote. cbn [List.app]. cbn [fold_left].
  replace (step st 34) with (InString [] Plain (Key d) s) by (destruct HS as [->| ->]; reflexivity).
  rewrite <- app_assoc. rewrite !fold_left_app. rewrite scan_chars by exact B. rewrite app_nil_r. cbn [fold_left step in_string]. change (34 =? 34) with true. cbv iota. cbn [close]. rewrite rev_involutive.
  match goal with |- context [fold_left step (lit ": {""sum"": ") ?x] => replace (fold_left step (lit ": {""sum"": ") x) with (Value (([], lit "sum") :: (d, fst e) :: s)) by reflexivity end.
  rewrite scan_int.
  replace (fold_left step (lit ", ""n_elem"": ") (int_state (fst (snd e)) (([], lit "sum") :: (d, fst e) :: s))) with (Value (([(lit "sum", JInt (fst (snd e)))], lit "n_elem") :: (d, fst e) :: s)).
  2: { change (lit ", ""n_elem"": ") with (44 :: lit " ""n_elem"": "). cbn [fold_left]. rewrite int_after by lia. reflexivity. }
  rewrite scan_int. change (lit "}") with [125]. cbn [fold_left]. rewrite int_after by lia. reflexivity.
Qed.
Lemma after_close v d k s : after v ((d, k) :: s) 125 = After (JObj (dput d k v)) s.
Proof. reflexivity. Qed.
Lemma after_comma v d k s : after v ((d, k) :: s) 44 = Next (dput d k v) s.
Proof. reflexivity. Qed.
Lemma scan_entries m : forall d s st, Forall name (map fst m) -> NoDup (map fst d ++ map fst m) -> m <> [] -> st = First d s \/ st = Next d s ->
  fold_left step (joined (map entry m) ++ [125]) st = After (JObj (d ++ map jentry m)) s.
Proof.
  induction m as [|e m IH]; intros d s st B ND NE HS; [congruence|]. cbn [map] in B. apply Forall_cons_iff in B. destruct B as [B1 B2].
  assert (FR : ~ In (fst e) (map fst d)). { cbn in ND. apply NoDup_remove_2 in ND. intros K. apply ND. apply in_or_app. now left. }
  destruct m as [|e2 m].
  - cbn [map joined]. rewrite fold_left_app, (scan_entry e d s) by assumption. cbn [fold_left step]. rewrite after_close.
    rewrite dput_fresh by exact FR. reflexivity.
  - change (joined (map entry (e :: e2 :: m))) with (entry e ++ lit ", " ++ joined (map entry (e2 :: m))). rewrite <- !app_assoc. rewrite fold_left_app, (scan_entry e d s) by assumption. rewrite fold_left_app.
    change (lit ", ") with [44; 32]. cbn [fold_left step]. rewrite after_comma. change (step (Next (dput d (fst e) (snd (jentry e))) s) 32) with (Next (dput d (fst e) (snd (jentry e))) s). rewrite dput_fresh by exact FR.
    change (d ++ [(fst e, snd (jentry e))]) with (d ++ [jentry e]). rewrite (IH (d ++ [jentry e]) s); [|exact B2| |discriminate|now right].
    + cbn [map]. rewrite <- app_assoc. reflexivity.
    + rewrite map_app, <- app_assoc. exact ND.
Qed.
Lemma scan_model m : proper m -> fold_left step (dumps m) (Value []) = After (JObj (map jentry m)) [].
Proof.
  intros [ND B]. unfold dumps. change (lit "{") with [123]. change (lit "}") with [125]. cbn [List.app fold_left]. change (step (Value []) 123) with (First [] []). destruct m as [|e m]; [reflexivity|].
  apply (scan_entries (e :: m) [] [] (First [] [])); auto. discriminate.
Qed.
Lemma as_model_ok m : as_model (JObj (map jentry m)) = Ok m.
Proof.
  cbn. induction m as [|[k [a n]] m IH]; [reflexivity|]. cbn [map mapM]. unfold entry_of at 1. cbn [jentry fst snd]. change (dget [(lit "sum", JInt a); (lit "n_elem", JInt (Z.of_nat n))] (lit "sum")) with (Some (JInt a)).
  change (dget [(lit "sum", JInt a); (lit "n_elem", JInt (Z.of_nat n))] (lit "n_elem")) with (Some (JInt (Z.of_nat n))). cbv iota. replace (Z.of_nat n <? 0) with false by lia. cbn [bind]. rewrite IH. cbn [bind]. now rewrite Nat2Z.id.
Qed.

(** ** Stripping and prefixes *)
Lemma lstrip_skipn t : exists j, lstrip t = skipn j t.
Proof. induction t as [|c t (j & IH)]; [exists 0%nat; reflexivity|]. cbn. destruct (space c); [exists (S j); exact IH|exists 0%nat; reflexivity]. Qed.
Lemma dumps_cons m : exists r, dumps m = 123 :: r /\ dumps m = 123 :: joined (map entry m) ++ [125].
Proof. eexists. split; reflexivity. Qed.
Lemma strip_dumps m : strip (dumps m) = dumps m.
Proof.
  destruct (dumps_cons m) as (r & _ & E). unfold strip. rewrite E. cbn [lstrip]. change (space 123) with false. cbv iota. change (123 :: joined (map entry m) ++ [125]) with ((123 :: joined (map entry m)) ++ [125]).
  rewrite rev_app_distr. cbn [rev List.app lstrip]. change (space 125) with false. cbv iota. cbn [rev]. rewrite rev_app_distr, rev_involutive. reflexivity.
Qed.
Lemma strip_prefix m n : exists k, (k <= n)%nat /\ strip (firstn n (dumps m)) = firstn k (dumps m).
Proof.
  destruct n as [|n]; [exists 0%nat; split; [lia|reflexivity]|]. destruct (dumps_cons m) as (r & E & _). unfold strip. rewrite E. cbn [firstn lstrip]. change (space 123) with false. cbv iota.
  set (p := 123 :: firstn n r). destruct (lstrip_skipn (rev p)) as (j & EJ). rewrite EJ, skipn_rev, rev_involutive. change p with (firstn (S n) (123 :: r)). rewrite firstn_firstn.
  exists (Nat.min (length (firstn (S n) (123 :: r)) - j) (S n)). split; [lia|reflexivity].
Qed.
Definition deep (st : scan) : Prop := match st with Value s | InInt _ _ s => s <> [] | _ => True end.
Lemma after_deep v s c : deep (after v s c).
Proof. unfold after. destruct (white c); [exact I|]. destruct s as [|[d k] s]; [exact I|]. destruct (c =? 44); [exact I|]. destruct (c =? 125); exact I. Qed.
Lemma step_deep st c : deep st -> deep (step st c).
Proof.
  destruct st as [s|d s|d s|acc m p s|d k s|neg n s|v s|]; intros HD; cbn [step].
  - destruct (white c); [exact HD|]. destruct (c =? 123); [exact I|]. destruct (c =? 34); [exact I|]. destruct (c =? 45); [exact HD|]. destruct (_ && _); [exact HD|exact I].
  - destruct (white c); [exact I|]. destruct (c =? 34); [exact I|]. destruct (c =? 125); exact I.
  - destruct (white c); [exact I|]. destruct (c =? 34); exact I.
  - unfold in_string. destruct m as [| |n v].
    + destruct (c =? 34); [destruct p; exact I|]. destruct (c =? 92); [exact I|]. destruct (c <? 32); exact I.
    + destruct (c =? 117); [exact I|]. destruct (unescape c); exact I.
    + destruct (hexv c); [|exact I]. destruct n as [|[|n]]; exact I.
  - destruct (white c); [exact I|]. destruct (c =? 58); [discriminate|exact I].
  - destruct (_ && _).
    + destruct n as [v|]; [|exact HD]. destruct (v =? 0); [exact I|exact HD].
    + destruct n as [v|]; [apply after_deep|exact I].
  - apply after_deep.
  - exact I.
Qed.
Lemma run_deep t : forall st, deep st -> deep (fold_left step t st).
Proof. induction t as [|c t IH]; intros st HD; [exact HD|]. cbn. apply IH. now apply step_deep. Qed.
Lemma run_bad t : fold_left step t Bad = Bad.
Proof. induction t; auto. Qed.
Lemma run_after v t : In 125 t -> fold_left step t (After v []) = Bad.
Proof.
  induction t as [|c t IH]; intros HI; [destruct HI|]. cbn [fold_left step]. unfold after. destruct (white c) eqn:E; [|apply run_bad]. apply IH. destruct HI as [->|HI]; [discriminate|exact HI].
Qed.
Lemma prefix_bad m k : proper m -> (k < length (dumps m))%nat -> loads (firstn k (dumps m)) = Err ValueError.
Proof.
  intros PM HK. unfold loads. pose proof (scan_model m PM) as R. rewrite <- (firstn_skipn k (dumps m)) in R. rewrite fold_left_app in R.
  assert (HI : In 125 (skipn k (dumps m))).
  { destruct (dumps_cons m) as (r & _ & E). change (dumps m) with ((123 :: joined (map entry m)) ++ [125]) in *. rewrite skipn_app. apply in_or_app. right. rewrite app_length in HK. cbn [length] in HK |- *. replace (k - S (length (joined (map entry m))))%nat with 0%nat by lia. now left. }
  assert (HD : k <> 0%nat -> deep (fold_left step (firstn k (dumps m)) (Value []))).
  { intros N. destruct k as [|k]; [congruence|]. destruct (dumps_cons m) as (r & E & _). rewrite E. cbn [firstn fold_left]. apply run_deep. exact I. }
  destruct k as [|k]; [reflexivity|]. specialize (HD ltac:(discriminate)). destruct (fold_left step (firstn (S k) (dumps m)) (Value [])) as [s|d s|d s|acc mm p s|d kk s|neg n s|v s|]; try reflexivity.
  - destruct n as [v|]; [|reflexivity]. destruct s; [cbn in HD; congruence|reflexivity].
  - destruct s; [|reflexivity]. rewrite run_after in R by exact HI. discriminate.
Qed.
Theorem roundtrip_ok m folder fs : proper m -> exists fs', save_model m folder Fine fs = (fs', None) /\ load_model folder fs' = Ok m.
Proof.
  intros PM. eexists. split; [reflexivity|]. unfold load_model. rewrite dget_dput. rewrite strip_dumps. unfold loads. rewrite scan_model by exact PM. cbn [bind]. apply as_model_ok.
Qed.
Lemma load_full m folder fs : proper m -> load_model folder (dput fs (model_file folder) (dumps m)) = Ok m.
Proof. intros PM. destruct (roundtrip_ok m folder fs PM) as (fs' & E1 & E2). injection E1 as <-. exact E2. Qed.
Lemma load_part m folder fs n : proper m -> (n < length (dumps m))%nat -> load_model folder (dput fs (model_file folder) (firstn n (dumps m))) = Err ValueError.
Proof.
  intros PM HN. unfold load_model. rewrite dget_dput. destruct (strip_prefix m n) as (k & HK & ->). rewrite prefix_bad by (auto; lia). reflexivity.
Qed.
Theorem crash_ok m folder fs st : proper m -> In st (moments m folder fs) ->
  (load_model folder st = load_model folder fs \/ load_model folder st = Ok m \/ load_model folder st = Err ValueError) /\
  (forall path, path <> model_file folder -> dget st path = dget fs path).
Proof.
  intros PM [<-|HI]; [auto|]. apply in_map_iff in HI. destruct HI as (n & <- & HN). apply in_seq in HN. split.
  - right. destruct (Nat.eq_dec n (length (dumps m))) as [->|N]; [left; rewrite firstn_all; now apply load_full|right; apply load_part; [exact PM|lia]].
  - intros path NP. apply dget_dput_other. congruence.
Qed.
Theorem lost_ok m folder fs k st : proper m -> nth_error (moments m folder fs) (S k) = Some st -> (k < length (dumps m))%nat -> load_model folder st = Err ValueError.
Proof.
  intros PM E HK. change (nth_error (map (fun n => dput fs (model_file folder) (firstn n (dumps m))) (seq 0 (S (length (dumps m))))) k = Some st) in E.
  assert (E2 : nth_error (map (fun n => dput fs (model_file folder) (firstn n (dumps m))) (seq 0 (S (length (dumps m))))) k = Some (dput fs (model_file folder) (firstn k (dumps m)))).
  { apply (map_nth_error (fun n => dput fs (model_file folder) (firstn n (dumps m)))). rewrite nth_error_nth' with (d := 0%nat) by (rewrite seq_length; lia). rewrite seq_nth by lia. reflexivity. }
  rewrite E2 in E. injection E as <-. now apply load_part.
Qed.
Theorem full_ok m folder fs fs' e n : proper m -> save_model m folder (Full n) fs = (fs', Some e) -> (n < length (dumps m))%nat -> load_model folder fs' = Err ValueError.
Proof. intros PM [= <- _] HN. now apply load_part. Qed.

(** ** Sessions *)
Lemma proper_dput m k v : proper m -> name k -> proper (dput m k v).
Proof.
  intros [ND B] HK. unfold proper. destruct (dput_keys m k v) as [E|[N E]]; rewrite E; [split; assumption|]. split; [|apply Forall_app; split; [exact B|now constructor]].
  apply NoDup_Add with (a := k) (l := map fst m); [|split; assumption]. rewrite <- (app_nil_r (map fst m)) at 1. apply Add_app.
Qed.
Lemma fit_all_ok c : forall m, proper m -> valid_call c -> exists m', fit_all m c = (m', None) /\ proper m'.
Proof.
  induction c as [|[nm power] c IH]; intros m PM HV; [eexists; split; [reflexivity|exact PM]|]. apply Forall_cons_iff in HV. destruct HV as [[V1 V2] HV]. cbn [fst snd] in *. destruct power as [|f power]; [congruence|]. cbn [fit_all].
  apply IH; [|exact HV]. now apply proper_dput.
Qed.
(* the model after some calls does not depend on where it is saved *)
Fixpoint fit_models (m : model) (cs : list call) : model := match cs with [] => m | c :: r => fit_models (fst (fit_all m c)) r end.
Lemma fit_models_app a b : forall m, fit_models m (a ++ b) = fit_models (fit_models m a) b.
Proof. induction a as [|c a IH]; intros m; [reflexivity|]. cbn. apply IH. Qed.
Lemma proper_fit cs : forall m, proper m -> Forall valid_call cs -> proper (fit_models m cs).
Proof. induction cs as [|c cs IH]; intros m PM HV; [exact PM|]. apply Forall_cons_iff in HV. destruct HV as [V HV]. cbn. destruct (fit_all_ok c m PM V) as (m' & -> & PM'). now apply IH. Qed.
Lemma in_one_ok cs : forall m, proper m -> Forall valid_call cs -> fit_calls (mkMean m None None) cs [] = (mkMean (fit_models m cs) None None, [], None).
Proof.
  induction cs as [|c cs IH]; intros m PM HV; [reflexivity|]. apply Forall_cons_iff in HV. destruct HV as [V HV]. cbn [fit_calls fit_models]. unfold partial_fit. cbn [m_model]. destruct (fit_all_ok c m PM V) as (m' & E & PM'). rewrite E. cbn [m_save fst]. now apply IH.
Qed.
Lemma fit_calls_ok p load cs : p <> [] -> forall m fs, proper m -> Forall valid_call cs -> (cs = [] -> load_model p fs = Ok m) ->
  exists fs', fit_calls (mkMean m (Some p) load) cs fs = (mkMean (fit_models m cs) (Some p) load, fs', None) /\ load_model p fs' = Ok (fit_models m cs).
Proof.
  intros NP. induction cs as [|c cs IH]; intros m fs PM HV HL; [exists fs; split; [reflexivity|now apply HL]|]. apply Forall_cons_iff in HV. destruct HV as [V HV]. cbn [fit_calls fit_models]. unfold partial_fit. cbn [m_model m_load]. destruct (fit_all_ok c m PM V) as (m' & E & PM'). rewrite E. cbn [m_save fst].
  destruct p as [|x p]; [congruence|]. cbn [save_model]. apply IH; auto. intros _. now apply load_full.
Qed.
Lemma new_mean_ok s p fs m : p <> [] -> load_model p fs = Ok m -> new_mean s (Some p) fs = Ok (mkMean m s (Some p)).
Proof. intros NP HL. destruct p as [|x p]; [congruence|]. unfold new_mean. rewrite HL. reflexivity. Qed.
Lemma later_ok p ss : p <> [] -> forall o fs, proper (m_model o) -> load_model p fs = Ok (m_model o) -> Forall valid_call (concat ss) ->
  exists o' fs', later p ss o fs = Ok (o', fs') /\ m_model o' = fit_models (m_model o) (concat ss) /\ load_model p fs' = Ok (m_model o').
Proof.
  intros NP. induction ss as [|cs ss IH]; intros o fs PM HL HV; [exists o, fs; auto|]. cbn [concat] in HV. apply Forall_app in HV. destruct HV as [V1 V2]. cbn [later concat].
  unfold session. rewrite (new_mean_ok _ _ _ _ NP HL). cbn [bind]. unfold text in *. destruct (fit_calls_ok p (Some p) cs NP (m_model o) fs PM V1) as (fs1 & E1 & L1); [auto|]. unfold text in *. rewrite E1. cbn [bind fst snd].
  destruct (IH (mkMean (fit_models (m_model o) cs) (Some p) (Some p)) fs1) as (o' & fs' & E2 & M2 & L2); [now apply proper_fit|exact L1|exact V2|]. exists o', fs'. split; [exact E2|]. split; [|exact L2]. rewrite M2. cbn [m_model]. symmetry. apply fit_models_app.
Qed.
Lemma proper_nil : proper [].
Proof. split; constructor. Qed.
Theorem sessions_ok p first ss fs : p <> [] -> first <> [] -> Forall valid_call (first ++ concat ss) ->
  exists o fs', sessions p first ss fs = Ok (o, fs') /\ m_model o = m_model (in_one (first ++ concat ss)) /\ load_model p fs' = Ok (m_model o).
Proof.
  intros NP NF HV. unfold in_one. rewrite in_one_ok by (auto using proper_nil). cbn [fst m_model]. apply Forall_app in HV. destruct HV as [V1 V2]. unfold sessions, session. cbn [new_mean bind].
  destruct (fit_calls_ok p None first NP [] fs proper_nil V1) as (fs1 & E1 & L1); [congruence|]. unfold text in *. rewrite E1. cbn [bind fst snd].
  destruct (later_ok p ss NP (mkMean (fit_models [] first) (Some p) None) fs1) as (o' & fs' & E2 & M2 & L2); [apply proper_fit; auto using proper_nil|exact L1|exact V2|]. exists o', fs'. split; [exact E2|]. split; [|exact L2]. rewrite M2. cbn [m_model]. symmetry. apply fit_models_app.
Qed.
Theorem sessions_predict p first ss fs rows : p <> [] -> first <> [] -> Forall valid_call (first ++ concat ss) ->
  exists o fs', sessions p first ss fs = Ok (o, fs') /\ m_model o = m_model (in_one (first ++ concat ss)) /\ disaggregate o rows = disaggregate (in_one (first ++ concat ss)) rows.
Proof. intros A B C. destruct (sessions_ok p first ss fs A B C) as (o & fs' & E & M & _). exists o, fs'. split; [exact E|]. split; [exact M|]. unfold disaggregate. now rewrite M. Qed.
Lemma name_ok t : forallb (fun c => (0 <=? c) && (c <=? 1114111) && negb ((55296 <=? c) && (c <=? 57343))) t = true -> name t.
Proof. intros E. apply Forall_forall. intros c Hc. rewrite forallb_forall in E. specialize (E c Hc). unfold character. lia. Qed.

Lemma white_list c : white c = true <-> In c [9; 10; 13; 32].
Proof. unfold white. cbn [In]. rewrite !Bool.orb_true_iff, !Z.eqb_eq. lia. Qed.
Lemma run_blank v t : fold_left step t (After v []) = After v [] \/ fold_left step t (After v []) = Bad.
Proof. induction t as [|c t IH]; [left; reflexivity|]. cbn [fold_left step]. unfold after. destruct (white c); [exact IH|right; apply run_bad]. Qed.
Lemma run_blanks v t : fold_left step t (After v []) = After v [] <-> Forall (fun c => In c [9; 10; 13; 32]) t.
Proof.
  induction t as [|c t IH]; [split; [constructor|reflexivity]|]. cbn [fold_left step]. unfold after. destruct (white c) eqn:E.
  - rewrite IH. apply white_list in E. split; [constructor; assumption|inversion 1; assumption].
  - split; [rewrite run_bad; discriminate|]. inversion 1; subst. apply white_list in H2. congruence.
Qed.
Lemma trailing m t : proper m ->
  (Forall (fun c => In c [9; 10; 13; 32]) t -> loads (dumps m ++ t) = loads (dumps m)) /\
  ((exists c, In c t /\ ~ In c [9; 10; 13; 32]) -> loads (dumps m ++ t) = Err ValueError).
Proof.
  intros PM. unfold loads. rewrite fold_left_app, (scan_model m PM). split.
  - intros F. apply (run_blanks (JObj (map jentry m))) in F. rewrite F. reflexivity.
  - intros (c & I & N). destruct (run_blank (JObj (map jentry m)) t) as [E|E]; rewrite E; [|reflexivity]. apply run_blanks in E. rewrite Forall_forall in E. exfalso. apply N, E, I.
Qed.
