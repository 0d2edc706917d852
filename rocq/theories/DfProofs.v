(** Proofs about the table of the meters of a group. *)
From Coq Require Import QArith Permutation Lia.
From Verif Require Import Base DfModel DfSpec.
Open Scope nat_scope.

(** ** Rounds *)
Lemma advance_n k ms : Nat.iter k advance ms = map (fun m => (fst m, skipn k (snd m))) ms.
Proof.
  induction k as [|k IH].
  - cbn. rewrite <- (map_id ms) at 1. apply map_ext. intros [i l]. reflexivity.
  - change (advance (Nat.iter k advance ms) = map (fun m => (fst m, skipn (S k) (snd m))) ms). rewrite IH. unfold advance.
    rewrite map_map. apply map_ext. intros [i l]. cbn [fst snd]. f_equal.
    clear. revert l. induction k as [|k IH]; intros [|x l]; try reflexivity. exact (IH l).
Qed.

Lemma in_round ms i c : In (i, c) (round_of ms) <-> c <> [] /\ exists l, In (i, c :: l) ms.
Proof.
  unfold round_of. rewrite in_flat_map. split.
  - intros ([j l] & I & H). cbn [fst snd] in H. destruct l as [|[|x c'] l]; [destruct H|destruct H|].
    destruct H as [H|[]]. injection H as <- <-. split; [discriminate|]. exists l. exact I.
  - intros (N & l & I). exists (i, c :: l). split; [exact I|]. cbn. destruct c; [contradiction|]. left. reflexivity.
Qed.

Lemma round_blank ms : round_of ms = [] <-> blank ms 0.
Proof.
  split.
  - intros E m c I H. destruct c as [|x c]; [reflexivity|]. destruct m as [i l]. destruct l as [|c' l]; [discriminate|].
    cbn in H. injection H as ->. assert (X : In (i, x :: c) (round_of ms)) by (apply in_round; split; [discriminate|exists l; exact I]).
    rewrite E in X. destruct X.
  - intros B. destruct (round_of ms) as [|[i c] r] eqn:E; [reflexivity|].
    assert (X : In (i, c) (round_of ms)) by (rewrite E; left; reflexivity). apply in_round in X. destruct X as (N & l & I).
    destruct (N (B _ c I eq_refl)).
Qed.

Lemma blank_advance ms k : blank (advance ms) k <-> blank ms (S k).
Proof.
  unfold blank, advance. split.
  - intros H m c I E. apply (H (fst m, tl (snd m)) c); [apply in_map_iff; exists m; auto|]. cbn. destruct (snd m); [discriminate|exact E].
  - intros H m c I E. apply in_map_iff in I. destruct I as (m' & <- & I). apply (H m' c I). cbn in E. destruct (snd m'); [destruct k; discriminate|exact E].
Qed.

Lemma rounds_eq : forall n ms k, k <= n -> blank ms k \/ k = n -> (forall j, j < k -> ~ blank ms j) ->
  rounds n ms = map (fun j => round_of (Nat.iter j advance ms)) (seq 0 k).
Proof.
  induction n as [|n IH]; intros ms k L B N.
  - assert (k = 0) by lia. subst. reflexivity.
  - cbn [rounds]. destruct (round_of ms) as [|x r] eqn:E.
    + destruct k as [|k]; [reflexivity|]. apply round_blank in E. destruct (N 0 ltac:(lia) E).
    + destruct k as [|k].
      * destruct B as [B|B]; [|discriminate]. apply round_blank in B. congruence.
      * cbn [seq map]. change (Nat.iter 0 advance ms) with ms. rewrite E. f_equal.
        rewrite (IH (advance ms) k).
        -- rewrite <- seq_shift, map_map. apply map_ext. intros j. f_equal. clear. induction j as [|j IH]; [reflexivity|].
           cbn [Nat.iter nat_rect] in *. unfold Nat.iter in *. cbn. rewrite IH. reflexivity.
        -- lia.
        -- destruct B as [B|B]; [left; apply blank_advance; exact B|right; lia].
        -- intros j J X. apply (N (S j) ltac:(lia)). apply blank_advance, X.
Qed.

Lemma n_rounds_le ms m : In m ms -> length (snd m) <= n_rounds ms.
Proof.
  unfold n_rounds. induction ms as [|x ms IH]; intros I; [destruct I|]. cbn. destruct I as [->|I]; [lia|]. specialize (IH I). lia.
Qed.
Lemma blank_end ms : blank ms (n_rounds ms).
Proof.
  intros m c I E. apply n_rounds_le in I. assert (n_rounds ms < length (snd m)) by (apply nth_error_Some; congruence). lia.
Qed.
Lemma blank_dec ms k : blank ms k \/ ~ blank ms k.
Proof.
  revert ms. induction k as [|k IH]; intros ms.
  - destruct (round_of ms) eqn:E; [left; apply round_blank, E|right; intros B; apply round_blank in B; congruence].
  - destruct (IH (advance ms)) as [B|B]; [left; apply blank_advance, B|right; intros X; apply B, blank_advance, X].
Qed.

Definition round_k (k : nat) (ms : list meter) : list (nat * chunk) := round_of (map (fun m => (fst m, skipn k (snd m))) ms).
Lemma skipn_nth {A} : forall k (l : list A) x, (exists r, skipn k l = x :: r) <-> nth_error l k = Some x.
Proof.
  induction k as [|k IH]; intros [|y l] x; cbn [skipn nth_error]; split; try (intros [r H]; discriminate); try discriminate.
  - intros [r H]. injection H as -> _. reflexivity.
  - intros H. injection H as ->. exists l. reflexivity.
  - apply IH.
  - apply IH.
Qed.
Lemma in_round_k k ms i c : In (i, c) (round_k k ms) <-> c <> [] /\ exists l, In (i, l) ms /\ nth_error l k = Some c.
Proof.
  unfold round_k. rewrite in_round. split; intros (N & H); split; auto.
  - destruct H as (l & I). apply in_map_iff in I. destruct I as ([j l'] & E & I). cbn [fst snd] in E.
    apply pair_equal_spec in E. destruct E as [-> E]. exists l'. split; [exact I|]. apply skipn_nth. exists l. exact E.
  - destruct H as (l & I & E). apply skipn_nth in E. destruct E as [r E]. exists r. apply in_map_iff.
    exists (i, l). cbn. rewrite E. auto.
Qed.

Lemma round_keys : forall ms, NoDup (map fst ms) -> NoDup (map fst (round_of ms)).
Proof.
  assert (S : forall ms i, In i (map fst (round_of ms)) -> In i (map fst ms)).
  { intros ms i I. apply in_map_iff in I. destruct I as ([j c] & <- & I). apply in_round in I. destruct I as (_ & l & I).
    apply in_map_iff. exists (j, c :: l). auto. }
  induction ms as [|[i l] ms IH]; intros N; [constructor|]. cbn [map] in N. inversion N as [|? ? N1 N2]; subst.
  unfold round_of. cbn [flat_map fst snd]. destruct l as [|[|x c] l]; [exact (IH N2)|exact (IH N2)|].
  cbn [app map fst]. constructor; [|exact (IH N2)]. intros I. apply N1. exact (S _ _ I).
Qed.
Lemma round_k_keys k ms : NoDup (map fst ms) -> NoDup (map fst (round_k k ms)).
Proof. intros N. apply round_keys. rewrite map_map. exact N. Qed.

(** ** One segment *)
Lemma value_at_in t c v : NoDup (map fst c) -> (value_at t c = Some v <-> In (t, v) c).
Proof.
  induction c as [|[u w] c IH]; intros N; [split; [discriminate|intros []]|]. cbn in N. inversion N as [|? ? N1 N2]; subst.
  cbn [value_at]. destruct (Z.eqb_spec t u) as [->|D].
  - split.
    + intros E. injection E as ->. left. reflexivity.
    + intros [E|I]; [injection E as ->; reflexivity|]. destruct (N1 (in_map fst _ _ I)).
  - rewrite (IH N2). split; [intros I; right; exact I|]. intros [E|I]; [injection E as <- _; destruct (D eq_refl)|exact I].
Qed.
Lemma nodup_of_fst {A B} (l : list (A * B)) : NoDup (map fst l) -> NoDup l.
Proof. induction l as [|x l IH]; intros N; [constructor|]. inversion N; subst. constructor; [|auto]. intros I. apply (in_map fst) in I. auto. Qed.

(** The cells of one meter, in a row that has each meter once. *)
Definition cell_list (i : nat) (r : cells) : list Q :=
  flat_map (fun c => if Nat.eqb (fst c) i then match snd c with Some v => [v] | None => [] end else []) r.
Lemma cell_list_cell i r : NoDup (map fst r) -> cell_list i r = match cell i r with Some v => [v] | None => [] end.
Proof.
  induction r as [|[j v] r IH]; intros N; [reflexivity|]. cbn in N. inversion N as [|? ? N1 N2]; subst.
  unfold cell_list. cbn [flat_map fst snd cell]. fold (cell_list i r). rewrite (IH N2). rewrite Nat.eqb_sym.
  destruct (Nat.eqb_spec i j) as [->|D]; [|reflexivity].
  assert (E : cell j r = None).
  { clear - N1. induction r as [|[k w] r IH]; [reflexivity|]. cbn in *. destruct (Nat.eqb_spec j k) as [->|]; [destruct N1; auto|]. apply IH. auto. }
  rewrite E. rewrite app_nil_r. reflexivity.
Qed.
Lemma in_column_cells i rows : in_column i rows = flat_map (fun row => map (pair (fst row)) (cell_list i (snd row))) rows.
Proof.
  unfold in_column. induction rows as [|[t r] rows IH]; [reflexivity|]. cbn [flat_map fst snd]. rewrite IH. f_equal.
  clear. unfold cell_list. induction r as [|[j v] r IH]; [reflexivity|]. cbn [flat_map fst snd]. rewrite map_app, IH. f_equal.
  destruct (Nat.eqb j i); [|reflexivity]. destruct v; reflexivity.
Qed.

Definition column_of (i : nat) (rows : list (Z * cells)) : list (Z * Q) :=
  flat_map (fun row => match cell i (snd row) with Some v => [(fst row, v)] | None => [] end) rows.
Lemma in_column_of i rows : (forall row, In row rows -> NoDup (map fst (snd row))) -> in_column i rows = column_of i rows.
Proof.
  intros N. rewrite in_column_cells. unfold column_of. induction rows as [|row rows IH]; [reflexivity|]. cbn [flat_map].
  rewrite IH by (intros r I; apply N; right; exact I). rewrite cell_list_cell by (apply N; left; reflexivity).
  f_equal. set (o := cell i (snd row)). destruct o; reflexivity.
Qed.

Lemma cell_join i t cs : NoDup (map fst cs) ->
  cell i (map (fun c => (fst c, value_at t (snd c))) cs) = match find (fun c => Nat.eqb i (fst c)) cs with Some c => value_at t (snd c) | None => None end.
Proof.
  intros _. induction cs as [|[j c] cs IH]; [reflexivity|]. cbn. destruct (Nat.eqb i j); [reflexivity|exact IH].
Qed.
Lemma find_key {B} i (c : B) cs : NoDup (map fst cs) -> In (i, c) cs -> find (fun c => Nat.eqb i (fst c)) cs = Some (i, c).
Proof.
  induction cs as [|[j d] cs IH]; intros N I; [destruct I|]. cbn in *. inversion N as [|? ? N1 N2]; subst.
  destruct I as [E|I]; [injection E as -> ->; rewrite Nat.eqb_refl; reflexivity|].
  destruct (Nat.eqb_spec i j) as [->|D]; [|apply IH; assumption]. destruct N1. apply (in_map fst) in I. exact I.
Qed.
Lemma find_no_key {B} i (cs : list (nat * B)) : ~ In i (map fst cs) -> find (fun c => Nat.eqb i (fst c)) cs = None.
Proof.
  induction cs as [|[j d] cs IH]; intros N; [reflexivity|]. cbn in *. destruct (Nat.eqb_spec i j) as [->|D]; [destruct N; auto|]. apply IH. auto.
Qed.

Lemma column_join union cs i c : outer union -> NoDup (map fst cs) -> In (i, c) cs -> NoDup (map fst c) ->
  Permutation (column_of i (snd (join union cs))) c.
Proof.
  intros O N I U. destruct (O (map (fun c => map fst (snd c)) cs)) as [ON OI].
  assert (E : column_of i (snd (join union cs)) =
    flat_map (fun t => match value_at t c with Some v => [(t, v)] | None => [] end) (union (map (fun c => map fst (snd c)) cs))).
  { clear ON OI. unfold column_of, join. cbn [snd]. induction (union (map (fun c => map fst (snd c)) cs)) as [|t l IH]; [reflexivity|].
    cbn [map flat_map fst snd]. rewrite IH, (cell_join i t cs N), (find_key i c cs N I). reflexivity. }
  rewrite E. apply NoDup_Permutation.
  - clear - ON. induction (union (map (fun c => map fst (snd c)) cs)) as [|t l IH]; [constructor|]. inversion ON as [|? ? N1 N2]; subst.
    cbn [flat_map]. destruct (value_at t c) as [v|]; [|apply IH, N2]. cbn. constructor; [|apply IH, N2].
    intros X. apply in_flat_map in X. destruct X as (u & Iu & X). destruct (value_at u c); [|destruct X]. destruct X as [X|[]]. injection X as -> _. contradiction.
  - apply nodup_of_fst, U.
  - intros [t v]. rewrite in_flat_map. split.
    + intros (u & _ & X). destruct (value_at u c) as [w|] eqn:V; [|destruct X]. destruct X as [X|[]]. injection X as -> ->. apply value_at_in; assumption.
    + intros X. exists t. split; [apply OI; exists (map fst c); split; [apply in_map_iff; exists (i, c); auto|exact (in_map fst _ _ X)]|].
      apply value_at_in in X; [|exact U]. rewrite X. left. reflexivity.
Qed.
Lemma column_join_none union cs i : NoDup (map fst cs) -> ~ In i (map fst cs) -> column_of i (snd (join union cs)) = [].
Proof.
  intros N I. unfold column_of, join. cbn [snd]. induction (union (map (fun c => map fst (snd c)) cs)) as [|t l IH]; [reflexivity|].
  cbn [map flat_map fst snd]. rewrite IH, (cell_join i t cs N), (find_no_key i cs I). reflexivity.
Qed.

(** ** All segments *)
Lemma add_new_in l : forall seen x, In x (add_new l seen) <-> In x l \/ In x seen.
Proof.
  induction l as [|y l IH]; intros seen x; [cbn; tauto|]. cbn [add_new]. destruct (existsb (Nat.eqb y) seen) eqn:E.
  - rewrite IH. apply existsb_exists in E. destruct E as (z & I & Z). apply Nat.eqb_eq in Z. subst z. cbn. split; [tauto|]. intros [[->|H]|H]; auto.
  - rewrite IH, in_app_iff. cbn. tauto.
Qed.
Lemma add_new_nodup l : forall seen, NoDup seen -> NoDup (add_new l seen).
Proof.
  induction l as [|y l IH]; intros seen N; [exact N|]. cbn [add_new]. destruct (existsb (Nat.eqb y) seen) eqn:E; apply IH; [exact N|].
  apply (Permutation_NoDup (Permutation_cons_append seen y)). constructor; [|exact N]. intros I.
  assert (X : existsb (Nat.eqb y) seen = true) by (apply existsb_exists; exists y; split; [exact I|apply Nat.eqb_refl]). congruence.
Qed.
Definition columns (segs : list table) : list nat := fold_left (fun seen s => add_new (fst s) seen) segs [].
Lemma columns_fold segs : forall seen, (forall x, In x (fold_left (fun seen s => add_new (fst s) seen) segs seen) <-> In x seen \/ exists s, In s segs /\ In x (fst s)) /\
  (NoDup seen -> NoDup (fold_left (fun seen (s : table) => add_new (fst s) seen) segs seen)).
Proof.
  induction segs as [|s segs IH]; intros seen; cbn [fold_left].
  - split; [|auto]. intros x. split; [auto|]. intros [H|(s & [] & _)]. exact H.
  - destruct (IH (add_new (fst s) seen)) as [A B]. split; [|intros N; apply B, add_new_nodup, N].
    intros x. rewrite A, add_new_in. split.
    + intros [[H|H]|(s' & I & H)]; [right; exists s; split; [left; reflexivity|exact H]|left; exact H|right; exists s'; split; [right; exact I|exact H]].
    + intros [H|(s' & [->|I] & H)]; [auto|auto|right; exists s'; auto].
Qed.
Lemma columns_in segs x : In x (columns segs) <-> exists s, In s segs /\ In x (fst s).
Proof. unfold columns. rewrite (proj1 (columns_fold segs []) x). split; [intros [[]|H]; exact H|auto]. Qed.
Lemma columns_nodup segs : NoDup (columns segs).
Proof. apply (proj2 (columns_fold segs [])). constructor. Qed.

Lemma cell_map i cols (r : cells) : cell i (map (fun j => (j, cell j r)) cols) = if existsb (Nat.eqb i) cols then cell i r else None.
Proof.
  induction cols as [|j cols IH]; [reflexivity|]. cbn. destruct (Nat.eqb_spec i j) as [->|D]; [reflexivity|exact IH].
Qed.
Lemma cell_no_key i (r : cells) : ~ In i (map fst r) -> cell i r = None.
Proof. induction r as [|[j v] r IH]; intros N; [reflexivity|]. cbn in *. destruct (Nat.eqb_spec i j) as [->|D]; [destruct N; auto|]. apply IH. auto. Qed.

Lemma column_stack i segs : (forall s row, In s segs -> In row (snd s) -> map fst (snd row) = fst s) ->
  in_column i (snd (stack segs)) = flat_map (fun s => column_of i (snd s)) segs.
Proof.
  intros H. unfold stack. fold (columns segs). cbn [snd]. rewrite in_column_of.
  2:{ intros row I. apply in_flat_map in I. destruct I as (s & Is & I). apply in_map_iff in I. destruct I as (r & <- & I).
      cbn [snd]. rewrite map_map. cbn [fst]. rewrite map_id. apply columns_nodup. }
  assert (G : forall s row, In s segs -> In row (snd s) -> cell i (map (fun j => (j, cell j (snd row))) (columns segs)) = cell i (snd row)).
  { intros s row Is Ir. rewrite cell_map. destruct (existsb (Nat.eqb i) (columns segs)) eqn:E; [reflexivity|].
    symmetry. apply cell_no_key. rewrite (H s row Is Ir). intros I.
    assert (X : existsb (Nat.eqb i) (columns segs) = true).
    { apply existsb_exists. exists i. split; [apply columns_in; exists s; auto|apply Nat.eqb_refl]. }
    congruence. }
  revert G. generalize (columns segs) as cols. intros cols G. clear H. induction segs as [|s segs IH]; [reflexivity|].
  cbn [flat_map]. unfold column_of in *. rewrite flat_map_app, IH by (intros s' row Is Ir; apply (G s' row); [right; exact Is|exact Ir]).
  f_equal. assert (G' : forall row, In row (snd s) -> cell i (map (fun j => (j, cell j (snd row))) cols) = cell i (snd row)).
  { intros row Ir. apply (G s row); [left; reflexivity|exact Ir]. }
  clear - G'. induction (snd s) as [|row l IHl]; [reflexivity|]. cbn [map flat_map fst snd]. rewrite G' by (left; reflexivity).
  rewrite IHl by (intros r Ir; apply G'; right; exact Ir). reflexivity.
Qed.
Lemma times_stack segs : times (stack segs) = flat_map times segs.
Proof.
  unfold stack, times. fold (columns segs). cbn [snd]. generalize (columns segs) as cols. intros cols.
  induction segs as [|s segs IH]; [reflexivity|]. cbn [flat_map]. rewrite map_app, IH. f_equal. rewrite map_map. reflexivity.
Qed.
Lemma join_rows union cs row : In row (snd (join union cs)) -> map fst (snd row) = fst (join union cs).
Proof. unfold join. cbn [fst snd]. intros I. apply in_map_iff in I. destruct I as (t & <- & _). cbn [snd]. rewrite map_map. reflexivity. Qed.
Lemma join_times union cs : times (join union cs) = union (map (fun c => map fst (snd c)) cs).
Proof. unfold join, times. cbn [snd]. rewrite map_map. apply map_id. Qed.

Definition segs (union : list (list Z) -> list Z) (k : nat) (ms : list meter) : list table :=
  map (fun j => join union (round_k j ms)) (seq 0 k).
Lemma df_segs union ms k : blank ms k -> (forall j, j < k -> ~ blank ms j) ->
  snd (dataframe_of_meters union ms) = snd (stack (segs union k ms)) /\
  (k <> 0 -> dataframe_of_meters union ms = stack (segs union k ms)).
Proof.
  intros B N. unfold dataframe_of_meters, segs.
  assert (L : k <= n_rounds ms).
  { destruct (Nat.le_gt_cases k (n_rounds ms)) as [L|L]; [exact L|]. destruct (N _ L (blank_end ms)). }
  rewrite (rounds_eq (n_rounds ms) ms k L (or_introl B) N).
  assert (E : map (fun j => round_of (Nat.iter j advance ms)) (seq 0 k) = map (fun j => round_k j ms) (seq 0 k)).
  { apply map_ext. intros j. rewrite advance_n. reflexivity. }
  rewrite E. destruct k as [|k]; [split; [reflexivity|contradiction]|]. cbn [seq map]. rewrite map_map. split; reflexivity.
Qed.

(** ** Readings *)
Lemma seq_chunks {A} : forall k (l : list (list A)),
  concat (firstn k l) = flat_map (fun j => match nth_error l j with Some c => c | None => [] end) (seq 0 k).
Proof.
  induction k as [|k IH]; intros l; [reflexivity|]. cbn [seq flat_map]. destruct l as [|c l].
  - cbn. clear. induction (seq 1 k) as [|j s IH]; [reflexivity|]. cbn. destruct j; exact IH.
  - cbn [firstn concat nth_error]. f_equal. rewrite IH, <- seq_shift. rewrite flat_map_concat_map, flat_map_concat_map, map_map. reflexivity.
Qed.
Lemma perm_flat_map {A B} (f g : A -> list B) l : (forall x, In x l -> Permutation (f x) (g x)) -> Permutation (flat_map f l) (flat_map g l).
Proof.
  induction l as [|x l IH]; intros H; [constructor|]. cbn. apply Permutation_app; [apply H; left; reflexivity|]. apply IH. intros y I. apply H. right. exact I.
Qed.

Lemma until_blank : forall union ms k i cs, outer union -> well_formed ms ->
  blank ms k -> (forall j, j < k -> ~ blank ms j) -> In (i, cs) ms ->
  Permutation (in_column i (snd (dataframe_of_meters union ms))) (concat (firstn k cs)).
Proof.
  intros union ms k i cs O [W1 W2] B N I. rewrite (proj1 (df_segs union ms k B N)), column_stack.
  2:{ intros s row Is Ir. unfold segs in Is. apply in_map_iff in Is. destruct Is as (j & <- & _). apply join_rows with (1 := Ir). }
  unfold segs. rewrite flat_map_concat_map, map_map, <- flat_map_concat_map, seq_chunks. apply perm_flat_map. intros j _.
  destruct (nth_error cs j) as [[|x c]|] eqn:E.
  - rewrite column_join_none; [constructor|apply round_k_keys, W1|]. intros X. apply in_map_iff in X. destruct X as ([i' c] & Ei & X).
    cbn in Ei. subst i'. apply in_round_k in X. destruct X as (NE & l & Il & El).
    assert (l = cs). { pose proof (find_key i l ms W1 Il) as F1. rewrite (find_key i cs ms W1 I) in F1. injection F1 as ->. reflexivity. }
    subst. rewrite E in El. injection El as <-. contradiction.
  - apply column_join; [exact O|apply round_k_keys, W1| |].
    + apply in_round_k. split; [discriminate|]. exists cs. auto.
    + apply (W2 (i, cs)); [exact I|]. exact (nth_error_In _ _ E).
  - rewrite column_join_none; [constructor|apply round_k_keys, W1|]. intros X. apply in_map_iff in X. destruct X as ([i' c] & Ei & X).
    cbn in Ei. subst i'. apply in_round_k in X. destruct X as (NE & l & Il & El).
    assert (l = cs). { pose proof (find_key i l ms W1 Il) as F1. rewrite (find_key i cs ms W1 I) in F1. injection F1 as ->. reflexivity. }
    subst. congruence.
Qed.

(** The first blank round. *)
Lemma first_blank ms : exists k, blank ms k /\ (forall j, j < k -> ~ blank ms j) /\ k <= n_rounds ms.
Proof.
  assert (G : forall n, (exists k, k <= n /\ blank ms k /\ forall j, j < k -> ~ blank ms j) \/ forall j, j <= n -> ~ blank ms j).
  { induction n as [|n IH].
    - destruct (blank_dec ms 0) as [B|B]; [left; exists 0; split; [lia|split; [exact B|lia]]|right]. intros j J. assert (j = 0) by lia. subst. exact B.
    - destruct IH as [(k & L & H)|H]; [left; exists k; split; [lia|exact H]|].
      destruct (blank_dec ms (S n)) as [B|B].
      + left. exists (S n). split; [lia|]. split; [exact B|]. intros j J. apply H. lia.
      + right. intros j J. destruct (Nat.eq_dec j (S n)) as [->|D]; [exact B|]. apply H. lia. }
  destruct (G (n_rounds ms)) as [(k & L & B & N)|H]; [exists k; auto|]. destruct (H _ (Nat.le_refl _) (blank_end ms)).
Qed.

Lemma all_readings : forall union ms i cs, outer union -> well_formed ms ->
  (forall j k, blank ms j -> j <= k -> blank ms k) -> In (i, cs) ms ->
  Permutation (in_column i (snd (dataframe_of_meters union ms))) (concat cs).
Proof.
  intros union ms i cs O W H I. destruct (first_blank ms) as (k & B & N & L).
  rewrite (until_blank union ms k i cs O W B N I). rewrite <- (firstn_skipn k cs) at 2. rewrite concat_app.
  assert (E : concat (skipn k cs) = []).
  { assert (Z : Forall (fun c => c = []) (skipn k cs)).
    { apply Forall_forall. intros c Ic. apply In_nth_error in Ic. destruct Ic as [j Ej].
      apply (H k (k + j) B ltac:(lia) (i, cs) c I). cbn [snd]. rewrite <- Ej. clear. revert cs. induction k as [|k IH]; intros cs; [reflexivity|]. destruct cs; [cbn; destruct j; reflexivity|]. apply IH. }
    induction Z as [|c l -> Z IH]; [reflexivity|exact IH]. }
  rewrite E, app_nil_r. reflexivity.
Qed.

(** ** The index *)
Lemma df_times union ms k : blank ms k -> (forall j, j < k -> ~ blank ms j) ->
  times (dataframe_of_meters union ms) = flat_map (fun j => union (map (fun c => map fst (snd c)) (round_k j ms))) (seq 0 k).
Proof.
  intros B N. unfold times at 1. rewrite (proj1 (df_segs union ms k B N)). change (map fst (snd (stack (segs union k ms)))) with (times (stack (segs union k ms))).
  rewrite times_stack. unfold segs. rewrite flat_map_concat_map, map_map, <- flat_map_concat_map.
  rewrite !flat_map_concat_map. f_equal. apply map_ext. intros j. apply join_times.
Qed.
Lemma round_times union ms j t : outer union ->
  In t (union (map (fun c => map fst (snd c)) (round_k j ms))) <-> exists m c v, In m ms /\ nth_error (snd m) j = Some c /\ In (t, v) c.
Proof.
  intros O. rewrite (proj2 (O _)). split.
  - intros (x & Ix & It). apply in_map_iff in Ix. destruct Ix as ([i c] & <- & Ic). apply in_round_k in Ic. destruct Ic as (_ & l & Il & El).
    apply in_map_iff in It. destruct It as ([t' v] & <- & It). exists (i, l), c, v. auto.
  - intros ([i l] & c & v & Im & E & It). exists (map fst c). split; [|exact (in_map fst _ _ It)]. apply in_map_iff.
    exists (i, c). split; [reflexivity|]. apply in_round_k. split; [intros ->; destruct It|]. exists l. auto.
Qed.

Lemma index_unique : forall union ms b, outer union -> aligned b ms -> NoDup (times (dataframe_of_meters union ms)).
Proof.
  intros union ms b O [M A]. destruct (first_blank ms) as (k & B & N & _). rewrite (df_times union ms k B N).
  assert (MB : forall i j, i <= j -> (b i <= b j)%Z).
  { intros i j L. induction L as [|j L IH]; [lia|]. specialize (M j). lia. }
  assert (G : forall n s, NoDup (flat_map (fun j => union (map (fun c => map fst (snd c)) (round_k j ms))) (seq s n)) /\
    forall t, In t (flat_map (fun j => union (map (fun c => map fst (snd c)) (round_k j ms))) (seq s n)) -> (b s <= t)%Z).
  { induction n as [|n IH]; intros s; [split; [constructor|intros t []]|]. cbn [seq flat_map]. destruct (IH (S s)) as [ND LB].
    assert (RB : forall t, In t (union (map (fun c => map fst (snd c)) (round_k s ms))) -> (b s <= t < b (S s))%Z).
    { intros t It. apply (round_times union ms s t O) in It. destruct It as (m & c & v & Im & E & It). exact (A m s c t v Im E It). }
    split.
    - pose proof (proj1 (O (map (fun c => map fst (snd c)) (round_k s ms)))) as NU.
      revert NU RB. generalize (union (map (fun c => map fst (snd c)) (round_k s ms))) as u. intros u NU RB.
      induction u as [|t u IHu]; [exact ND|]. inversion NU as [|? ? N1 N2]; subst. cbn [app]. constructor.
      + intros X. apply in_app_or in X. destruct X as [X|X]; [contradiction|]. specialize (LB t X). specialize (RB t (or_introl eq_refl)). lia.
      + apply IHu; [exact N2|]. intros t' It. apply RB. right. exact It.
    - intros t It. apply in_app_or in It. destruct It as [It|It]; [specialize (RB t It); lia|]. specialize (LB t It). specialize (M s). lia. }
  exact (proj1 (G k 0)).
Qed.

(** Every row has a reading. *)
Lemma in_column_in i rows t v : (forall row, In row rows -> NoDup (map fst (snd row))) ->
  In (t, v) (in_column i rows) -> exists row, In row rows /\ fst row = t /\ In (i, Some v) (snd row).
Proof.
  intros _ H. unfold in_column in H. apply in_flat_map in H. destruct H as (row & Ir & H). apply in_flat_map in H. destruct H as ([j o] & Ic & H).
  cbn [fst snd] in H. destruct (Nat.eqb_spec j i) as [->|D]; [|destruct H]. destruct o as [w|]; [|destruct H]. destruct H as [H|[]].
  injection H as <- ->. exists row. auto.
Qed.
Lemma row_has_reading : forall union ms t, outer union -> In t (times (dataframe_of_meters union ms)) ->
  exists m c v, In m ms /\ In c (snd m) /\ In (t, v) c.
Proof.
  intros union ms t O I. destruct (first_blank ms) as (k & B & N & _). rewrite (df_times union ms k B N) in I.
  apply in_flat_map in I. destruct I as (j & _ & I). apply (round_times union ms j t O) in I. destruct I as (m & c & v & Im & E & It).
  exists m, c, v. split; [exact Im|]. split; [exact (nth_error_In _ _ E)|exact It].
Qed.
