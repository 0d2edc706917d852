From Verif Require Import Base FhmmModel FhmmSpec.
From Coq Require Import QArith Qround Lqa Sorted Permutation.
Open Scope nat_scope.

(** The digits of a combined state. *)
Fixpoint dig (ns : list nat) (k : nat) : list nat :=
  match ns with [] => [] | n :: r => (k / size r) mod n :: dig r k end.

Lemma size_pos ns : Forall (fun n => 0 < n) ns -> 0 < size ns.
Proof. induction 1 as [|n ns Hn HF IH]; cbn; [lia|]. change (fold_right Nat.mul 1 ns) with (size ns). nia. Qed.

Lemma dig_mod ns : Forall (fun n => 0 < n) ns -> forall k, dig ns (k mod size ns) = dig ns k.
Proof.
  induction 1 as [|n ns Hn HF IH]; intros k; [reflexivity|]. cbn [dig size fold_right]. change (fold_right Nat.mul 1 ns) with (size ns).
  assert (P := size_pos ns HF). f_equal.
  - rewrite (Nat.mul_comm n), Nat.mod_mul_r by lia. rewrite (Nat.add_comm (k mod size ns)), (Nat.mul_comm (size ns)), Nat.div_add_l by lia. rewrite (Nat.div_small (k mod size ns)) by (apply Nat.mod_upper_bound; lia). rewrite Nat.add_0_r, Nat.mod_mod by lia. reflexivity.
  - rewrite <- IH. rewrite <- (IH k). f_equal. rewrite (Nat.mul_comm n), Nat.mod_mul_r by lia. rewrite (Nat.mul_comm (size ns)), Nat.mod_add, Nat.mod_mod by lia. reflexivity.
Qed.

Lemma dig_bound ns : Forall (fun n => 0 < n) ns -> forall k, Forall2 (fun j n => j < n) (dig ns k) ns.
Proof. induction 1 as [|n ns Hn HF IH]; intros k; cbn [dig]; constructor; [apply Nat.mod_upper_bound; lia|apply IH]. Qed.

(** The number whose digits are given. *)
Fixpoint undig (ns : list nat) (js : list nat) : nat :=
  match ns, js with n :: r, j :: js' => j * size r + undig r js' | _, _ => 0 end.
Lemma undig_bound ns js : Forall2 (fun j n => j < n) js ns -> undig ns js < size ns.
Proof. induction 1 as [|j n js ns Hj HF IH]; cbn; [lia|]. change (fold_right Nat.mul 1 ns) with (size ns). nia. Qed.
Lemma bound_pos js ns : Forall2 (fun j n => j < n) js ns -> Forall (fun n => 0 < n) ns.
Proof. induction 1; constructor; [lia|assumption]. Qed.
Lemma dig_undig ns js : Forall2 (fun j n => j < n) js ns -> dig ns (undig ns js) = js.
Proof.
  induction 1 as [|j n js ns Hj HF IH]; [reflexivity|]. cbn [undig dig]. assert (B := undig_bound ns js HF). assert (PP := bound_pos _ _ HF). assert (P := size_pos ns PP).
  f_equal.
  - rewrite Nat.div_add_l by lia. rewrite (Nat.div_small (undig ns js)) by lia. rewrite Nat.add_0_r. apply Nat.mod_small. exact Hj.
  - rewrite <- (dig_mod ns PP). rewrite Nat.add_comm, Nat.mod_add by lia. rewrite Nat.mod_small by exact B. exact IH.
Qed.
Lemma undig_dig ns : Forall (fun n => 0 < n) ns -> forall k, k < size ns -> undig ns (dig ns k) = k.
Proof.
  induction 1 as [|n ns Hn HF IH]; intros k Hk; [cbn in *; lia|]. cbn [dig undig]. cbn [size fold_right] in Hk. change (fold_right Nat.mul 1 ns) with (size ns) in Hk. assert (P := size_pos ns HF).
  rewrite <- (dig_mod ns HF). rewrite IH by (apply Nat.mod_upper_bound; lia). rewrite (Nat.mod_small (k / size ns)) by (apply Nat.div_lt_upper_bound; [lia|rewrite Nat.mul_comm; exact Hk]). rewrite Nat.mul_comm. symmetry. apply Nat.div_mod. lia.
Qed.

Lemma nth_nil {A} k : nth_error (@nil A) k = None.
Proof. destruct k; reflexivity. Qed.
(** Indexing a table of all pairs. *)
Lemma nth_pairs {A B C} (f : A -> B -> C) (a : list A) (b : list B) k : 0 < length b ->
  nth_error (flat_map (fun x => map (f x) b) a) k = match nth_error a (k / length b), nth_error b (k mod length b) with Some x, Some y => Some (f x y) | _, _ => None end.
Proof.
  intros Hb. revert k. induction a as [|x a IH]; intros k; cbn [flat_map].
  - rewrite !nth_nil. reflexivity.
  - destruct (lt_dec k (length b)) as [L|L].
    + rewrite nth_error_app1 by (rewrite map_length; exact L). rewrite nth_error_map, Nat.div_small, Nat.mod_small by exact L. cbn. destruct (nth_error b k); reflexivity.
    + rewrite nth_error_app2, map_length, IH by (rewrite map_length; lia).
      assert (EQ : k = (k - length b) + 1 * length b) by lia. set (q := k - length b) in *. rewrite EQ, Nat.div_add, Nat.mod_add by lia. rewrite Nat.add_1_r. reflexivity.
Qed.
Lemma len_pairs {A B C} (f : A -> B -> C) (a : list A) (b : list B) : length (flat_map (fun x => map (f x) b) a) = length a * length b.
Proof. induction a as [|x a IH]; cbn; [reflexivity|]. rewrite app_length, map_length, IH. reflexivity. Qed.

Lemma kron1_nth a b k : 0 < length b -> nth_error (kron1 a b) k = match nth_error a (k / length b), nth_error b (k mod length b) with Some x, Some y => Some (x * y)%Q | _, _ => None end.
Proof. exact (nth_pairs Qmult a b k). Qed.
Lemma kron1_len a b : length (kron1 a b) = length a * length b.
Proof. exact (len_pairs Qmult a b). Qed.
Lemma kron2_nth a b k : 0 < length b -> nth_error (kron2 a b) k = match nth_error a (k / length b), nth_error b (k mod length b) with Some x, Some y => Some (kron1 x y) | _, _ => None end.
Proof. exact (nth_pairs kron1 a b k). Qed.
Lemma kron2_len a b : length (kron2 a b) = length a * length b.
Proof. exact (len_pairs kron1 a b). Qed.

Definition lens {A} (l : list (list A)) : list nat := map (@length A) l.

Lemma fold_kron1_len ls a : length (fold_left kron1 ls a) = length a * size (lens ls).
Proof. revert a. induction ls as [|l ls IH]; intros a; cbn; [lia|]. rewrite IH, kron1_len. change (fold_right Nat.mul 1 (map (length (A:=Q)) ls)) with (size (lens ls)). lia. Qed.
Lemma fold_kron2_len ls a : length (fold_left kron2 ls a) = length a * size (lens ls).
Proof. revert a. induction ls as [|l ls IH]; intros a; cbn; [lia|]. rewrite IH, kron2_len. change (fold_right Nat.mul 1 (map (length (A:=list Q)) ls)) with (size (lens ls)). lia. Qed.

Lemma nth_some {A} (l : list A) i : i < length l -> exists x, nth_error l i = Some x.
Proof. intros H. destruct (nth_error l i) as [x|] eqn:E; [eauto|]. apply nth_error_None in E. lia. Qed.

Lemma picks_dig {A} (ls : list (list A)) k : Forall (fun n => 0 < n) (lens ls) -> exists xs, picks ls (dig (lens ls) k) xs.
Proof.
  intros H. assert (B := dig_bound _ H k). clear H. remember (dig (lens ls) k) as js. clear Heqjs. revert js B. induction ls as [|l ls IH]; intros js B; inversion_clear B.
  - exists []. constructor.
  - destruct (IH _ H0) as [xs Hx]. destruct (nth_some l _ H) as [z Ez]. exists (z :: xs). constructor; assumption.
Qed.

Lemma kron1_fold ls : forall a, Forall (fun n => 0 < n) (lens ls) -> forall k x xs, nth_error a (k / size (lens ls)) = Some x -> picks ls (dig (lens ls) k) xs ->
  exists y, nth_error (fold_left kron1 ls a) k = Some y /\ (y == x * prod xs)%Q.
Proof.
  induction ls as [|l ls IH]; intros a HP k x xs Hx HX; cbn [lens map dig] in *.
  - inversion HX; subst. cbn [size fold_right] in Hx. rewrite Nat.div_1_r in Hx. exists x. split; [exact Hx|]. cbn. lra.
  - inversion_clear HP. inversion HX as [|? ? x1 ? ? xs1 E1 P1]; subst. cbn [fold_left]. fold (@lens Q ls) in *. assert (P := size_pos _ H0).
    cbn [size fold_right] in Hx. change (fold_right Nat.mul 1 (lens ls)) with (size (lens ls)) in Hx. rewrite (Nat.mul_comm (length l)), <- Nat.div_div in Hx by lia.
    destruct (IH (kron1 a l) H0 k (x * x1)%Q xs1) as (y & Hy & Ey); [rewrite kron1_nth by exact H; rewrite Hx, E1; reflexivity|exact P1|]. exists y. split; [exact Hy|]. rewrite Ey. cbn. change (fold_right Qmult 1%Q xs1) with (prod xs1). ring.
Qed.

Lemma pi_thm ls k : ls <> [] -> Forall (fun n => 0 < n) (lens ls) -> k < size (lens ls) -> exists pi p ps, compute_pi_fhmm ls = Ok pi /\ length pi = size (lens ls) /\ nth_error pi k = Some p /\ picks ls (dig (lens ls) k) ps /\ (p == prod ps)%Q.
Proof.
  destruct ls as [|a ls]; [contradiction|]. intros _ HP Hk. cbn [compute_pi_fhmm]. cbn [lens map] in *. inversion_clear HP. fold (@lens Q ls) in *. assert (P := size_pos _ H0).
  destruct (picks_dig (a :: ls) k) as [ps HX]; [constructor; assumption|]. cbn [lens map dig] in HX. fold (@lens Q ls) in HX. inversion HX as [|? ? x1 ? ? xs1 E1 P1]; subst.
  assert (E2 := E1). rewrite Nat.mod_small in E2 by (apply Nat.div_lt_upper_bound; [lia|]; rewrite Nat.mul_comm; exact Hk).
  destruct (kron1_fold ls a H0 k x1 xs1 E2 P1) as (y & Hy & Ey). exists (fold_left kron1 ls a), y, (x1 :: xs1). split; [reflexivity|]. split; [apply fold_kron1_len|]. split; [exact Hy|]. split; [exact HX|]. rewrite Ey. reflexivity.
Qed.

(** Matrices: row [k] of the combination is the combination of the rows. *)
Lemma kron2_fold ls : forall a, Forall (fun n => 0 < n) (lens ls) -> forall k r rs, nth_error a (k / size (lens ls)) = Some r -> picks ls (dig (lens ls) k) rs ->
  nth_error (fold_left kron2 ls a) k = Some (fold_left kron1 rs r).
Proof.
  induction ls as [|l ls IH]; intros a HP k x xs Hx HX; cbn [lens map dig] in *.
  - inversion HX; subst. cbn [size fold_right] in Hx. rewrite Nat.div_1_r in Hx. exact Hx.
  - inversion_clear HP. inversion HX as [|? ? x1 ? ? xs1 E1 P1]; subst. cbn [fold_left]. fold (@lens (list Q) ls) in *. assert (P := size_pos _ H0).
    cbn [size fold_right] in Hx. change (fold_right Nat.mul 1 (lens ls)) with (size (lens ls)) in Hx. rewrite (Nat.mul_comm (length l)), <- Nat.div_div in Hx by lia.
    apply IH; [exact H0| |exact P1]. rewrite kron2_nth by exact H. rewrite Hx, E1. reflexivity.
Qed.

Lemma picks_lens {A} (ns : list nat) (ls : list (list (list A))) js rs : Forall2 (fun n a => length a = n /\ Forall (fun r => length r = n) a) ns ls -> picks ls js rs -> lens rs = ns.
Proof.
  intros H HX. revert ns H. induction HX as [|l j x ls js xs E HX IH]; intros ns H; inversion_clear H; [reflexivity|]. cbn. f_equal; [|apply IH; assumption].
  destruct H0 as [_ H0]. rewrite Forall_forall in H0. apply H0. eapply nth_error_In. exact E.
Qed.
Lemma lens_square {A} ns (ls : list (list (list A))) : Forall2 (fun n a => length a = n /\ Forall (fun r => length r = n) a) ns ls -> lens ls = ns.
Proof. induction 1 as [|n a ns ls [H _] HF IH]; cbn; [reflexivity|]. fold (lens ls). rewrite IH. congruence. Qed.

Lemma A_thm ns ls k k' : ls <> [] -> Forall2 (fun n a => length a = n /\ Forall (fun r => length r = n) a) ns ls -> Forall (fun n => 0 < n) ns -> k < size ns -> k' < size ns ->
  exists A row x rows xs, compute_A_fhmm ls = Ok A /\ length A = size ns /\ nth_error A k = Some row /\ length row = size ns /\ nth_error row k' = Some x /\ picks ls (dig ns k) rows /\ picks rows (dig ns k') xs /\ (x == prod xs)%Q.
Proof.
  intros HN HS HP Hk Hk'. assert (EL := lens_square _ _ HS). destruct (picks_dig ls k) as [rows HX]; [rewrite EL; exact HP|]. rewrite EL in HX. assert (ER := picks_lens _ _ _ _ HS HX).
  assert (RN : rows <> []) by (intros ->; inversion HX; subst; contradiction).
  destruct (pi_thm rows k') as (pi & p & ps & P1 & P2 & P3 & P4 & P5); [exact RN|rewrite ER; exact HP|rewrite ER; exact Hk'|].
  destruct ls as [|a ls]; [contradiction|]. destruct rows as [|r rs]; [contradiction|]. injection P1 as <-.
  exists (fold_left kron2 ls a), (fold_left kron1 rs r), p, (r :: rs), ps. split; [reflexivity|]. split; [rewrite fold_kron2_len, <- EL; reflexivity|]. split.
  - subst ns. cbn [lens map] in *. inversion_clear HP. fold (@lens (list Q) ls) in *. assert (P := size_pos _ H0). inversion HX as [|? ? x1 ? ? xs1 E1 Q1]; subst. apply kron2_fold; [exact H0| |exact Q1].
    rewrite Nat.mod_small in E1 by (apply Nat.div_lt_upper_bound; [lia|]; rewrite Nat.mul_comm; exact Hk). exact E1.
  - rewrite <- ER. split; [rewrite ER; rewrite <- ER; exact P2|]. split; [exact P3|]. split; [rewrite ER; exact HX|]. split; [exact P4|exact P5].
Qed.

(** Means. *)
Lemma product_len {A} (ls : list (list A)) : length (product ls) = size (lens ls).
Proof. induction ls as [|l ls IH]; [reflexivity|]. cbn [product lens map size fold_right]. rewrite len_pairs, IH. reflexivity. Qed.
Lemma product_nth {A} (ls : list (list A)) : Forall (fun n => 0 < n) (lens ls) -> forall k xs, k < size (lens ls) -> picks ls (dig (lens ls) k) xs -> nth_error (product ls) k = Some xs.
Proof.
  induction ls as [|l ls IH]; intros HP k xs Hk HX; cbn [lens map] in *.
  - inversion HX; subst. cbn in *. replace k with 0 by lia. reflexivity.
  - inversion_clear HP. cbn [dig size fold_right] in *. fold (@lens A ls) in *. change (fold_right Nat.mul 1 (lens ls)) with (size (lens ls)) in Hk. assert (P := size_pos _ H0). inversion HX as [|? ? x1 ? ? xs1 E1 P1]; subst.
    cbn [product]. rewrite nth_pairs by (rewrite product_len; exact P). rewrite product_len. rewrite Nat.mod_small in E1 by (apply Nat.div_lt_upper_bound; [lia|]; rewrite Nat.mul_comm; exact Hk). rewrite E1.
    rewrite (IH H0 (k mod size (lens ls)) xs1); [reflexivity|apply Nat.mod_upper_bound; lia|]. rewrite dig_mod by exact H0. exact P1.
Qed.

(** Decoding. *)
Lemma floor_div a b : Qfloor (inject_Z (Z.of_nat a) / inject_Z (Z.of_nat b)) = Z.of_nat (a / b).
Proof. rewrite Nat2Z.inj_div. rewrite Zdiv_Qdiv. reflexivity. Qed.

Lemma floor_unique x z : (inject_Z z <= x)%Q -> (x < inject_Z (z + 1))%Q -> Qfloor x = z.
Proof.
  intros H1 H2. pose proof (Qfloor_le x) as F1. pose proof (Qlt_floor x) as F2.
  assert (A1 : (inject_Z z < inject_Z (Qfloor x + 1))%Q) by lra. rewrite <- Zlt_Qlt in A1.
  assert (A2 : (inject_Z (Qfloor x) < inject_Z (z + 1))%Q) by lra. rewrite <- Zlt_Qlt in A2. lia.
Qed.
Lemma floor_minus x z : Qfloor (x - inject_Z z) = (Qfloor x - z)%Z.
Proof.
  pose proof (Qfloor_le x) as F1. pose proof (Qlt_floor x) as F2. apply floor_unique.
  - unfold Z.sub. rewrite inject_Z_plus, inject_Z_opp. lra.
  - replace (Qfloor x - z + 1)%Z with ((Qfloor x + 1) - z)%Z by lia. unfold Z.sub. rewrite (inject_Z_plus (Qfloor x + 1)), inject_Z_opp. lra.
Qed.

Lemma digit s f n : 0 < f -> 0 < n -> store_int (fmod (inject_Z (Z.of_nat s) / inject_Z (Z.of_nat f)) n) = (s / f) mod n.
Proof.
  intros Hf Hn. unfold store_int, fmod. rewrite <- inject_Z_mult, floor_minus, floor_div.
  assert (E : Qfloor (inject_Z (Z.of_nat s) / inject_Z (Z.of_nat f) / inject_Z (Z.of_nat n)) = Z.of_nat (s / f / n)).
  { rewrite Nat.div_div by lia. rewrite <- floor_div. apply Qfloor_comp. rewrite Nat2Z.inj_mul, inject_Z_mult. field. split; intros H; change 0%Q with (inject_Z 0) in H; rewrite inject_Z_injective in H; lia. }
  rewrite E. rewrite <- Nat2Z.inj_mul. rewrite Nat.mod_eq by lia. lia.
Qed.

Lemma fold_size {A} (cs : list (list A)) m : fold_left (fun n c => n * length c) cs m = m * size (lens cs).
Proof. revert m. induction cs as [|c cs IH]; intros m; cbn; [lia|]. rewrite IH. change (fold_right Nat.mul 1 (map (length (A:=A)) cs)) with (size (lens cs)). lia. Qed.

Lemma decode_loop_thm cs s : Forall (fun n => 0 < n) (lens cs) -> forall f, f = size (lens cs) -> exists js ps, decode_loop f cs s = Ok (combine js ps) /\ js = dig (lens cs) s /\ picks cs js ps.
Proof.
  induction cs as [|c cs IH]; intros HP f Hf; cbn [lens map] in *.
  - exists [], []. repeat split. constructor.
  - inversion_clear HP. fold (@lens Z cs) in *. assert (P := size_pos _ H0). cbn [size fold_right] in Hf. change (fold_right Nat.mul 1 (lens cs)) with (size (lens cs)) in Hf.
    cbn [decode_loop]. replace (length c =? 0) with false by (symmetry; apply Nat.eqb_neq; lia).
    assert (EF : f / length c = size (lens cs)) by (rewrite Hf, Nat.mul_comm, Nat.div_mul by lia; reflexivity). rewrite EF.
    replace (size (lens cs) =? 0) with false by (symmetry; apply Nat.eqb_neq; lia). cbv zeta. rewrite digit by assumption. set (j := (s / size (lens cs)) mod length c).
    destruct (nth_some c j) as [p Ep]; [apply Nat.mod_upper_bound; lia|]. destruct (IH H0 _ eq_refl) as (js & ps & E1 & E2 & E3). exists (j :: js), (p :: ps). unfold item. rewrite Ep. cbn [bind]. rewrite E1. cbn [bind combine].
    split; [reflexivity|]. split; [cbn [dig]; fold j; rewrite E2; reflexivity|]. constructor; assumption.
Qed.
Lemma decode_thm cs s : Forall (fun n => 0 < n) (lens cs) -> exists ps, decode_one cs s = Ok (combine (dig (lens cs) s) ps) /\ picks cs (dig (lens cs) s) ps.
Proof.
  intros HP. unfold decode_one. rewrite fold_size, Nat.mul_1_l. destruct (decode_loop_thm cs s HP _ eq_refl) as (js & ps & E1 & E2 & E3). subst js. eauto.
Qed.

Lemma picks_length {A} (ls : list (list A)) js xs : picks ls js xs -> length js = length xs /\ length js = length ls.
Proof. induction 1; cbn; lia. Qed.
Lemma picks_bound {A} (ls : list (list A)) js xs : picks ls js xs -> Forall2 (fun j n => j < n) js (lens ls).
Proof. induction 1; cbn; constructor; [|assumption]. apply nth_error_Some. congruence. Qed.
Lemma picks_fun {A} (ls : list (list A)) js xs ys : picks ls js xs -> picks ls js ys -> xs = ys.
Proof. intros H. revert ys. induction H; intros ys K; inversion K; subst; [reflexivity|]. f_equal; [congruence|auto]. Qed.
Lemma combine_fst' {A B} (a : list A) (b : list B) : length a = length b -> map fst (combine a b) = a.
Proof. revert b. induction a as [|u a IH]; intros [|w b] H; cbn in *; try lia; [reflexivity|]. rewrite IH by lia. reflexivity. Qed.
Lemma combine_snd' {A B} (a : list A) (b : list B) : length a = length b -> map snd (combine a b) = b.
Proof. revert b. induction a as [|u a IH]; intros [|w b] H; cbn in *; try lia; [reflexivity|]. rewrite IH by lia. reflexivity. Qed.

(** The combined model and the decoding agree. *)
Lemma combined_thm {C} ns (model : list (hmm C)) centroids : model <> [] -> Forall (fun n => 0 < n) ns ->
  Forall2 (fun n (h : hmm C) => shaped n (startprob h) (transmat h) (means h)) ns model -> lens centroids = ns ->
  exists pi A mu, create_combined_hmm model = Ok (pi, A, mu) /\ length pi = size ns /\ length A = size ns /\ length mu = size ns /\
  forall k, k < size ns -> exists d, decode_one centroids k = Ok d /\
    picks centroids (map fst d) (map snd d) /\
    (exists m ms, nth_error mu k = Some m /\ picks (map means model) (map fst d) ms /\ m = sum ms) /\
    (exists p ps, nth_error pi k = Some p /\ picks (map startprob model) (map fst d) ps /\ (p == prod ps)%Q) /\
    (forall k', k' < size ns -> exists d' row x rows xs, decode_one centroids k' = Ok d' /\
       nth_error A k = Some row /\ length row = size ns /\ nth_error row k' = Some x /\
       picks (map transmat model) (map fst d) rows /\ picks rows (map fst d') xs /\ (x == prod xs)%Q).
Proof.
  intros HN HP HS HC.
  assert (L1 : lens (map startprob model) = ns) by (clear -HS; induction HS as [|n h ns l H HS IH]; cbn; [reflexivity|]; f_equal; [apply H|exact IH]).
  assert (L2 : lens (map means model) = ns) by (clear -HS; induction HS as [|n h ns l H HS IH]; cbn; [reflexivity|]; f_equal; [apply H|exact IH]).
  assert (L3 : Forall2 (fun n a => length a = n /\ Forall (fun r => length r = n) a) ns (map transmat model)) by (clear -HS; induction HS as [|n h ns l H HS IH]; cbn; constructor; [split; apply H|exact IH]).
  assert (N1 : map startprob model <> []) by (destruct model; [contradiction|discriminate]). assert (N2 : map transmat model <> []) by (destruct model; [contradiction|discriminate]).
  assert (P := size_pos ns HP).
  destruct (pi_thm _ 0 N1) as (pi & _ & _ & E1 & E1L & _); [rewrite L1; exact HP|rewrite L1; exact P|].
  destruct (A_thm ns _ 0 0 N2 L3 HP P P) as (A & _ & _ & _ & _ & E2 & E2L & _).
  exists pi, A, (compute_means_fhmm (map means model)). unfold create_combined_hmm. rewrite E1, E2. cbn [bind]. split; [reflexivity|]. split; [rewrite E1L, L1; reflexivity|]. split; [exact E2L|].
  split; [unfold compute_means_fhmm; rewrite map_length, product_len, L2; reflexivity|]. intros k Hk.
  assert (HPC : Forall (fun n => 0 < n) (lens centroids)) by (rewrite HC; exact HP).
  destruct (decode_thm centroids k HPC) as (ps & D1 & D2). rewrite HC in D1, D2. assert (DL := picks_length _ _ _ D2).
  exists (combine (dig ns k) ps). split; [exact D1|]. rewrite combine_fst', combine_snd' by apply DL. split; [exact D2|]. split; [|split].
  - destruct (picks_dig (map means model) k) as [ms M1]; [rewrite L2; exact HP|]. assert (M2 := product_nth _ (eq_ind_r (fun x => Forall (fun n => 0 < n) x) HP L2) k ms). rewrite L2 in *. exists (sum ms), ms. unfold compute_means_fhmm. rewrite nth_error_map, M2 by assumption. repeat split; assumption.
  - destruct (pi_thm _ k N1) as (pi' & p & qs & F1 & _ & F2 & F3 & F4); [rewrite L1; exact HP|rewrite L1; exact Hk|]. rewrite L1 in *. assert (pi' = pi) by congruence. subst pi'. eauto.
  - intros k' Hk'. destruct (A_thm ns _ k k' N2 L3 HP Hk Hk') as (A' & row & x & rows & xs & F1 & _ & F2 & F3 & F4 & F5 & F6 & F7). assert (A' = A) by congruence. subst A'.
    destruct (decode_thm centroids k' HPC) as (ps' & D1' & D2'). rewrite HC in D1', D2'. assert (DL' := picks_length _ _ _ D2'). exists (combine (dig ns k') ps'), row, x, rows, xs. rewrite combine_fst' by apply DL'. repeat split; assumption.
Qed.

Lemma bijection_thm centroids js : Forall2 (fun j c => j < length c) js centroids ->
  exists k, k < size (map (@length Z) centroids) /\ (exists d, decode_one centroids k = Ok d /\ map fst d = js) /\
    forall k' d', k' < size (map (@length Z) centroids) -> decode_one centroids k' = Ok d' -> map fst d' = js -> k' = k.
Proof.
  intros HJ. assert (HB : Forall2 (fun j n => j < n) js (lens centroids)) by (clear -HJ; induction HJ; cbn; constructor; assumption). assert (HP := bound_pos _ _ HB). change (map (@length Z) centroids) with (lens centroids).
  exists (undig (lens centroids) js). split; [apply undig_bound; exact HB|]. split.
  - destruct (decode_thm centroids (undig (lens centroids) js) HP) as (ps & D1 & D2). rewrite dig_undig in * by exact HB. exists (combine js ps). split; [exact D1|]. apply combine_fst'. apply (picks_length _ _ _ D2).
  - intros k' d' Hk' E1 E2. destruct (decode_thm centroids k' HP) as (ps & D1 & D2). assert (d' = combine (dig (lens centroids) k') ps) by congruence. subst d'. rewrite combine_fst' in E2 by apply (picks_length _ _ _ D2). rewrite <- E2. symmetry. apply undig_dig; assumption.
Qed.

(** Probabilities. *)
Lemma sum_app a b : (sum (a ++ b) == sum a + sum b)%Q.
Proof. unfold sum. induction a as [|x a IH]; cbn [app fold_right]; [ring|]. rewrite IH. ring. Qed.
Lemma sum_scale x b : (sum (map (fun y => x * y)%Q b) == x * sum b)%Q.
Proof. unfold sum. induction b as [|y b IH]; cbn [map fold_right]; [ring|]. rewrite IH. ring. Qed.
Lemma sum_kron a b : (sum (kron1 a b) == sum a * sum b)%Q.
Proof. induction a as [|x a IH]; cbn [kron1 flat_map]; [unfold sum; cbn [fold_right]; ring|]. rewrite sum_app, sum_scale. unfold kron1 in IH. rewrite IH. unfold sum. cbn [fold_right]. ring. Qed.
Lemma dist_kron a b : distribution a -> distribution b -> distribution (kron1 a b).
Proof.
  intros [A1 A2] [B1 B2]. split; [|rewrite sum_kron, A2, B2; reflexivity]. apply Forall_forall. intros x Hx. unfold kron1 in Hx. apply in_flat_map in Hx. destruct Hx as (u & Hu & Hx). apply in_map_iff in Hx. destruct Hx as (v & <- & Hv).
  rewrite Forall_forall in *. apply Qmult_le_0_compat; auto.
Qed.
Lemma dist_fold ls : forall a, distribution a -> Forall distribution ls -> distribution (fold_left kron1 ls a).
Proof. induction ls as [|l ls IH]; intros a Ha HF; [exact Ha|]. inversion_clear HF. cbn. apply IH; [apply dist_kron; assumption|assumption]. Qed.
Lemma rows_kron a b : Forall distribution a -> Forall distribution b -> Forall distribution (kron2 a b).
Proof.
  intros HA HB. apply Forall_forall. intros x Hx. unfold kron2 in Hx. apply in_flat_map in Hx. destruct Hx as (u & Hu & Hx). apply in_map_iff in Hx. destruct Hx as (v & <- & Hv). rewrite Forall_forall in *. apply dist_kron; auto.
Qed.
Lemma rows_fold ls : forall a, Forall distribution a -> Forall (Forall distribution) ls -> Forall distribution (fold_left kron2 ls a).
Proof. induction ls as [|l ls IH]; intros a Ha HF; [exact Ha|]. inversion_clear HF. cbn. apply IH; [apply rows_kron; assumption|assumption]. Qed.

Lemma stochastic_thm {C} (model : list (hmm C)) pi A mu : Forall (fun h => distribution (startprob h) /\ Forall distribution (transmat h)) model ->
  create_combined_hmm model = Ok (pi, A, mu) -> distribution pi /\ Forall distribution A.
Proof.
  intros HF E. destruct model as [|h model]; [discriminate|]. injection E as <- <- <-. inversion_clear HF. split.
  - apply dist_fold; [apply H|]. apply Forall_map. eapply Forall_impl; [|exact H0]. cbn. tauto.
  - apply rows_fold; [apply H|]. apply Forall_map. eapply Forall_impl; [|exact H0]. cbn. tauto.
Qed.
