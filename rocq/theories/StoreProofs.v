(** Proofs about the data store model. *)
From Coq Require Import Sorting.Sorted.
From Verif Require Import Base TimeFrameModel TimeFrameSpec TimeFrameProofs StoreModel StoreSpec.
Open Scope Z_scope.

(** ** Rows in time order *)

Definition slt {A} (a b : sample A) : Prop := fst a < fst b.

Lemma increasing_sorted {A} (l : list (sample A)) : increasing l <-> StronglySorted slt l.
Proof.
  split.
  - intros H. apply Sorted_StronglySorted; [unfold Relations_1.Transitive, slt; intros; lia|].
    induction l as [|a l IH]; [constructor|].
    destruct l as [|b l]; [repeat constructor|].
    destruct H as [H1 H2]. constructor; [apply IH; exact H2|constructor; exact H1].
  - intros H. induction l as [|a l IH]; [exact I|].
    destruct l as [|b l]; [exact I|].
    inversion H as [|? ? Hs Hf]; subst. split; [inversion Hf; assumption|apply IH; assumption].
Qed.

Lemma sorted_app {A} (l1 l2 : list (sample A)) : StronglySorted slt (l1 ++ l2) <->
  StronglySorted slt l1 /\ StronglySorted slt l2 /\
  (forall a b, In a l1 -> In b l2 -> fst a < fst b).
Proof.
  induction l1 as [|x l1 IH]; simpl.
  - split; [intros H; split; [constructor|split; [exact H|intros ? ? []]]|intros (_ & H & _); exact H].
  - split.
    + intros H. inversion H as [|? ? Hs Hf]; subst. apply IH in Hs. destruct Hs as (S1 & S2 & S3).
      rewrite Forall_app in Hf. destruct Hf as [F1 F2].
      split; [constructor; assumption|]. split; [assumption|].
      intros a b [->|Ha] Hb; [rewrite Forall_forall in F2; exact (F2 b Hb)|exact (S3 a b Ha Hb)].
    + intros (S1 & S2 & S3). inversion S1 as [|? ? Hs Hf]; subst.
      constructor.
      * apply IH. split; [assumption|]. split; [assumption|]. intros a b Ha Hb. apply S3; [right|]; assumption.
      * rewrite Forall_app. split; [assumption|]. rewrite Forall_forall. intros b Hb.
        apply S3; [left; reflexivity|assumption].
Qed.

Lemma is_filter_filter {A} (P : A -> Prop) (f : A -> bool) l m :
  (forall x, f x = true <-> P x) -> (is_filter P l m <-> m = filter f l).
Proof.
  intros Hf. split.
  - intros H. induction H; simpl; [reflexivity| |].
    + apply Hf in H. rewrite H. f_equal. assumption.
    + destruct (f x) eqn:E; [apply Hf in E; contradiction|assumption].
  - intros ->. induction l as [|x l IH]; simpl; [constructor|].
    destruct (f x) eqn:E; constructor; [apply Hf; exact E|exact IH| |exact IH].
    intros HP. apply Hf in HP. congruence.
Qed.

Definition inTFcb (t : tf) (i : Z) : bool :=
  negb (tf_empty t) &&
  (match tf_start t with None => true | Some s => s <=? i end) &&
  (match tf_end t with None => true
   | Some e => if tf_incl t then i <=? e else i <? e end).

Lemma inTFcb_spec t i : inTFcb t i = true <-> inTFc t i.
Proof.
  unfold inTFcb, inTFc. destruct (tf_empty t); simpl; [split; [discriminate|intros [H _]; discriminate]|].
  destruct (tf_start t) as [s|], (tf_end t) as [e|], (tf_incl t); simpl; 
    rewrite ?andb_true_iff, ?Z.leb_le, ?Z.ltb_lt; split; intros H.
  all: try (split; [reflexivity|]).
  all: try (split; [intros s' [= <-]|intros e' [= <-]]; lia).
  all: try (split; [intros s' [=]|intros e' [= <-]]; lia).
  all: try (split; [intros s' [= <-]|intros e' [=]]; lia).
  all: try (split; [intros s' [=]|intros e' [=]]).
  all: destruct H as (_ & Hs & He).
  all: try specialize (Hs s eq_refl); try specialize (He e eq_refl).
  all: try split; try reflexivity; try (destruct He as [He|[? He]]); try lia; try discriminate.
Qed.

Lemma inTFcb_convex t a b c : a <= b -> b <= c -> inTFcb t a = true -> inTFcb t c = true -> inTFcb t b = true.
Proof.
  intros H1 H2. unfold inTFcb. destruct (tf_empty t); simpl; [discriminate|].
  destruct (tf_start t), (tf_end t), (tf_incl t); rewrite ?andb_true_iff, ?Z.leb_le, ?Z.ltb_lt; simpl; lia.
Qed.

Lemma rows_of_period_filter {A} t (rows m : list (sample A)) :
  rows_of_period t rows m <-> m = filter (fun r => inTFcb t (fst r)) rows.
Proof. apply is_filter_filter. intros x. apply inTFcb_spec. Qed.

(** The rows of a period are consecutive rows of the table. *)
Lemma filter_none {A} (f : A -> bool) l : Forall (fun x => f x = false) l -> filter f l = [].
Proof. intros H. induction H as [|x l H HF IH]; simpl; [reflexivity|rewrite H; exact IH]. Qed.

Lemma filter_all {A} (f : A -> bool) l : Forall (fun x => f x = true) l -> filter f l = l.
Proof. intros H. induction H as [|x l H HF IH]; simpl; [reflexivity|rewrite H, IH; reflexivity]. Qed.

Lemma period_run {A} t (rows : list (sample A)) : StronglySorted slt rows ->
  exists pre m post, rows = pre ++ m ++ post /\
    Forall (fun r => inTFcb t (fst r) = false) pre /\
    Forall (fun r => inTFcb t (fst r) = true) m /\
    Forall (fun r => inTFcb t (fst r) = false) post.
Proof.
  induction 1 as [|x rows Hs IH Hf].
  - exists [], [], []. repeat split; constructor.
  - destruct IH as (pre & m & post & -> & F1 & F2 & F3).
    destruct (inTFcb t (fst x)) eqn:E.
    + destruct m as [|y m].
      * exists [], [x], (pre ++ post). split; [reflexivity|]. split; [constructor|].
        split; [repeat constructor; exact E|]. rewrite Forall_app. split; assumption.
      * destruct pre as [|z pre].
        -- exists [], (x :: y :: m), post. split; [reflexivity|]. split; [constructor|].
           split; [constructor; assumption|assumption].
        -- exfalso. inversion F1 as [|? ? Hz _]; subst. inversion F2 as [|? ? Hy _]; subst.
           rewrite Forall_forall in Hf.
           assert (Hxz : fst x < fst z) by (apply Hf; left; reflexivity).
           simpl in Hs. inversion Hs as [|? ? _ Hfz]; subst. rewrite Forall_forall in Hfz.
           assert (Hzy : fst z < fst y) by (apply Hfz; rewrite in_app_iff; right; left; reflexivity).
           rewrite (inTFcb_convex t (fst x) (fst z) (fst y)) in Hz; [discriminate|lia|lia|exact E|exact Hy].
    + exists (x :: pre), m, post. split; [reflexivity|]. split; [constructor; assumption|]. split; assumption.
Qed.

Lemma coords_none {A} q (l : list (sample A)) : forall i,
  Forall (fun r => terms_hold q (fst r) = false) l -> coords_from i q l = [].
Proof. induction l as [|x l IH]; intros i H; simpl; [reflexivity|]. inversion H as [|? ? H1 H2]; subst. rewrite H1. apply IH; exact H2. Qed.

Lemma coords_app {A} q (l1 l2 : list (sample A)) : forall i,
  coords_from i q (l1 ++ l2) = coords_from i q l1 ++ coords_from (i + length l1) q l2.
Proof.
  induction l1 as [|x l1 IH]; intros i; simpl; [rewrite Nat.add_0_r; reflexivity|].
  rewrite IH. replace (S i + length l1)%nat with (i + S (length l1))%nat by lia.
  destruct (terms_hold q (fst x)); reflexivity.
Qed.

Lemma coords_all {A} q (l : list (sample A)) : forall i,
  Forall (fun r => terms_hold q (fst r) = true) l -> coords_from i q l = seq i (length l).
Proof.
  induction l as [|x l IH]; intros i H; simpl; [reflexivity|].
  inversion H as [|? ? H1 H2]; subst. rewrite H1. f_equal. apply IH; exact H2.
Qed.

Lemma coords_run {A} q (pre m post : list (sample A)) :
  Forall (fun r => terms_hold q (fst r) = false) pre ->
  Forall (fun r => terms_hold q (fst r) = true) m ->
  Forall (fun r => terms_hold q (fst r) = false) post ->
  coords_from 0 q (pre ++ m ++ post) = seq (length pre) (length m).
Proof.
  intros H1 H2 H3. rewrite coords_app, coords_app, (coords_none q pre), (coords_all q m), (coords_none q post); try assumption.
  simpl. apply app_nil_r.
Qed.

Lemma coords_length {A} q (l : list (sample A)) : forall i,
  length (coords_from i q l) = length (filter (fun r => terms_hold q (fst r)) l).
Proof. induction l as [|x l IH]; intros i; simpl; [reflexivity|]. destruct (terms_hold q (fst x)); simpl; rewrite IH; reflexivity. Qed.

Lemma query_terms_cases t : tf_empty t = false ->
  (tf_start t = None /\ tf_end t = None /\ query_terms t = Ok None) \/
  (exists q, query_terms t = Ok (Some q) /\ ~ (tf_start t = None /\ tf_end t = None)).
Proof.
  intros H. unfold query_terms. rewrite H.
  destruct (tf_start t) as [s|], (tf_end t) as [e|].
  4: left; repeat split; reflexivity.
  all: right; eexists; split; [reflexivity|intros [? ?]; discriminate].
Qed.

Lemma terms_hold_inTFcb t q i : tf_empty t = false -> query_terms t = Ok q -> terms_hold q i = inTFcb t i.
Proof.
  intros H. unfold query_terms, inTFcb. rewrite H.
  destruct (tf_start t) as [s|], (tf_end t) as [e|]; intros [= <-]; simpl; rewrite ?andb_true_r; reflexivity.
Qed.

Lemma last_opt_snoc {A} (l : list A) x : last_opt (l ++ [x]) = Some x.
Proof. induction l as [|y l IH]; [reflexivity|]. simpl. destruct (l ++ [x]) eqn:E; [destruct l; discriminate|exact IH]. Qed.

Lemma last_opt_map {A B} (f : A -> B) l : last_opt (map f l) = option_map f (last_opt l).
Proof. induction l as [|x l IH]; [reflexivity|]. destruct l as [|y l]; [reflexivity|]. exact IH. Qed.

Lemma last_opt_seq i n : last_opt (seq i (S n)) = Some (i + n)%nat.
Proof. rewrite seq_S, last_opt_snoc. reflexivity. Qed.

(** ** Arithmetic of the chunk boundaries *)

Lemma ceil_div_0 c : (1 <= c)%nat -> ceil_div 0 c = 0%nat.
Proof. intros H. unfold ceil_div. apply Nat.div_small. lia. Qed.

Lemma ceil_div_small n c : (1 <= n <= c)%nat -> ceil_div n c = 1%nat.
Proof.
  intros H. unfold ceil_div. symmetry. apply Nat.div_unique with (r := (n - 1)%nat); lia.
Qed.

Lemma ceil_div_step n c : (1 <= c)%nat -> (c <= n)%nat -> ceil_div n c = S (ceil_div (n - c) c).
Proof.
  intros H H1. unfold ceil_div. replace (n + (c - 1))%nat with (n - c + (c - 1) + 1 * c)%nat by lia.
  rewrite Nat.div_add by lia. lia.
Qed.

Lemma mod_step n c : (1 <= c)%nat -> (c <= n)%nat -> ((n - c) mod c = n mod c)%nat.
Proof. intros H H1. replace n with (n - c + 1 * c)%nat at 2 by lia. rewrite Nat.mod_add by lia. reflexivity. Qed.

Lemma starts_step a c m : map (fun k => (a + k * c)%nat) (seq 0 (S m)) =
  a :: map (fun k => (a + c + k * c)%nat) (seq 0 m).
Proof.
  simpl. f_equal; [lia|]. rewrite <- seq_shift, map_map. apply map_ext. intros k. lia.
Qed.

Lemma select_run {A} (pre d post : list A) stop : stop = (length pre + length d)%nat ->
  select (pre ++ d ++ post) (length pre) stop = d.
Proof.
  intros ->. unfold select. replace (length pre + length d - length pre)%nat with (length d) by lia.
  rewrite skipn_app, skipn_all2, Nat.sub_diag by lia. simpl.
  rewrite firstn_app, firstn_all, Nat.sub_diag. simpl. apply app_nil_r.
Qed.

Lemma select_after {A} (pre post : list A) n : select (pre ++ post) (length pre) (length pre + n) = firstn n post.
Proof.
  unfold select. replace (length pre + n - length pre)%nat with n by lia.
  rewrite skipn_app, skipn_all2, Nat.sub_diag by lia. reflexivity.
Qed.

(** ** One pass over a run of rows *)

Definition start_of {A} (k : nat) (w : tf) (x : sample A) : Z :=
  if Nat.eqb k 0 then match tf_start w with Some s => s | None => fst x end else fst x.
Definition end_of {A} (w : tf) (x : sample A) : Z :=
  match tf_end w with Some e => e | None => fst x end.

Lemma starts_of_first more k w (x : Z) (l : list Z) e :
  last_opt (x :: l) = Some e ->
  timeframe_for_chunk more k w (x :: l) =
  mk (Some (if Nat.eqb k 0 then match tf_start w with Some s => s | None => x end else x))
     (Some (if more then e else match tf_end w with Some e' => e' | None => e end)).
Proof.
  intros H. unfold timeframe_for_chunk.
  destruct more, k as [|k]; simpl Nat.eqb; simpl Nat.ltb; cbv iota;
    destruct (tf_start w) as [s|], (tf_end w) as [e'|]; cbn -[last_opt mk]; rewrite ?H; reflexivity.
Qed.

Lemma mk_bounded s e : s < e -> exists t, mk (Some s) (Some e) = Ok t /\ bounded t s e /\ tf_incl t = false.
Proof.
  intros H. rewrite mk_ok by (intros a b [= <-] [= <-]; exact H).
  eexists. split; [reflexivity|]. split; [split; [reflexivity|split; [reflexivity|split; [reflexivity|exact H]]]|reflexivity].
Qed.

Lemma look_ahead_run {A} (pre d post : list (sample A)) n stop : d <> [] ->
  (stop = (length pre + length d)%nat \/ (post = [] /\ (length pre + length d <= stop)%nat)) ->
  look_ahead_rows (pre ++ d ++ post) d n stop = if Nat.eqb n 0 then None else Some (firstn n post).
Proof.
  intros Hd Hstop. unfold look_ahead_rows. destruct n as [|n]; [reflexivity|].
  simpl Nat.ltb. cbv iota. simpl Nat.eqb. cbv iota.
  destruct d as [|x d]; [contradiction|].
  destruct Hstop as [->|[-> Hle]].
  - replace (length pre + length (x :: d))%nat with (length (pre ++ x :: d)) by (rewrite app_length; reflexivity).
    rewrite app_assoc, select_after. reflexivity.
  - unfold select. rewrite skipn_all2 by (rewrite app_nil_r, app_length; exact Hle).
    rewrite !firstn_nil. reflexivity.
Qed.

Record pass_ok {A} (rows : list (sample A)) (n c k : nat) (w : tf) (x z : sample A)
  (r1 : list (sample A)) (cs : list (chunk A)) : Prop := {
  p_rows : concat (map (fun ch => tl (c_rows ch)) cs) = r1;
  p_first : exists ch rest d, cs = ch :: rest /\ c_rows ch = x :: d;
  p_share : share_one_row cs;
  p_size : Forall (fun ch => (2 <= length (c_rows ch) <= c + 1)%nat) cs;
  p_look : Forall (look_ahead_right rows n) cs;
  p_chain : chain (start_of k w x) (map c_tf cs) (end_of w z);
  p_flags : Forall (fun ch => tf_incl (c_tf ch) = false) cs }.

Lemma last_in_tail {A} (y : sample A) r z : last_opt (y :: r) = Some z -> StronglySorted slt (y :: r) ->
  r <> [] -> fst y < fst z.
Proof.
  intros H Hs Hr. destruct (exists_last Hr) as (r' & z' & ->).
  replace (y :: r' ++ [z']) with ((y :: r') ++ [z']) in H by reflexivity.
  rewrite last_opt_snoc in H. injection H as <-.
  inversion Hs as [|? ? _ Hf]; subst. rewrite Forall_forall in Hf. apply Hf.
  rewrite in_app_iff. right. left. reflexivity.
Qed.

Lemma firstn_S_cons {A} c (x : A) r : firstn (S c) (x :: r) = x :: firstn c r.
Proof. reflexivity. Qed.

(** The chunk loop over a run [x :: r1] of consecutive rows; [d = 1] is the
    unbounded load, whose end position is one past the last row. *)
Lemma hdf_chunks_run {A} (rows : list (sample A)) w n c n_chunks d : (1 <= c)%nat ->
  forall m k pre x r1 post z,
  rows = pre ++ (x :: r1) ++ post ->
  StronglySorted slt (x :: r1) ->
  Forall (fun r => forall s, tf_start w = Some s -> s <= fst r) (x :: r1) ->
  Forall (fun r => forall e, tf_end w = Some e -> fst r <= e) (x :: r1) ->
  last_opt (x :: r1) = Some z ->
  ((d = 0%nat /\ (1 <= length r1)%nat) \/ (d = 1%nat /\ post = [] /\ (length r1 mod c <> 0)%nat)) ->
  m = ceil_div (length r1 + d) c -> (k + m = n_chunks)%nat ->
  exists cs, hdf_chunks rows w n c n_chunks (length pre + length r1 + d) k
               (map (fun j => (length pre + j * c)%nat) (seq 0 m)) = (cs, None) /\
             pass_ok rows n c k w x z r1 cs.
Proof.
  intros Hc. induction m as [|m IH]; intros k pre x r1 post z Hrows Hs Hlo Hhi Hlast Hd Hm Hk.
  { exfalso. destruct (Nat.le_gt_cases c (length r1 + d)) as [H|H].
    - rewrite ceil_div_step in Hm by lia. discriminate.
    - destruct (Nat.eq_dec (length r1 + d) 0) as [E|E]; [|rewrite ceil_div_small in Hm by lia; discriminate].
      destruct Hd as [[_ Hd]|(_ & _ & Hd)]; [lia|].
      replace (length r1) with 0%nat in Hd by lia. rewrite Nat.mod_0_l in Hd by lia. congruence. }
  rewrite starts_step. cbn [hdf_chunks].
  assert (Hr1 : (1 <= length r1)%nat).
  { destruct Hd as [[_ Hd]|(_ & _ & Hd)]; [exact Hd|].
    destruct r1; [simpl in Hd; rewrite Nat.mod_0_l in Hd by lia; congruence|simpl; lia]. }
  assert (Hr1' : r1 <> []) by (destruct r1; [simpl in Hr1; lia|discriminate]).
  pose proof (last_in_tail x r1 z Hlast Hs Hr1') as Hxz.
  assert (Hz : In z (x :: r1)).
  { destruct (exists_last Hr1') as (r' & z' & E). rewrite E in *.
    replace (x :: r' ++ [z']) with ((x :: r') ++ [z']) in Hlast by reflexivity.
    rewrite last_opt_snoc in Hlast. injection Hlast as ->.
    right. rewrite in_app_iff. right. left. reflexivity. }
  destruct (Nat.le_gt_cases (length r1 + d) c) as [Hsmall|Hbig].
  - (* last chunk *)
    assert (m = 0)%nat by (rewrite ceil_div_small in Hm by lia; lia). subst m.
    assert (Hend : (if Nat.ltb (length pre + length r1 + d) (length pre + c) then (length pre + length r1 + d)%nat else (length pre + c)%nat) = (length pre + length r1 + d)%nat).
    { destruct (Nat.ltb_spec (length pre + length r1 + d) (length pre + c)); lia. }
    rewrite Hend.
    assert (Hmore : Nat.ltb k (n_chunks - 1) = false) by (apply Nat.ltb_ge; lia).
    rewrite Hmore.
    assert (Hsel : select rows (length pre) (S (length pre + length r1 + d)) = x :: r1).
    { rewrite Hrows. destruct Hd as [[-> _]|(-> & -> & _)].
      - apply select_run. simpl. lia.
      - unfold select. rewrite app_nil_r, skipn_app, skipn_all2, Nat.sub_diag by lia. simpl skipn.
        rewrite app_nil_l. apply firstn_all2. cbn [length]. lia. }
    rewrite Hsel.
    assert (Hlook : look_ahead_rows rows (x :: r1) n (S (length pre + length r1 + d)) = if Nat.eqb n 0 then None else Some (firstn n post)).
    { rewrite Hrows. apply look_ahead_run; [discriminate|].
      destruct Hd as [[-> _]|(-> & -> & _)]; [left; simpl; lia|right; split; [reflexivity|simpl; lia]]. }
    rewrite Hlook.
    replace (map fst (x :: r1)) with (fst x :: map fst r1) by reflexivity.
    rewrite (starts_of_first false k w (fst x) (map fst r1) (fst z)).
    2:{ replace (fst x :: map fst r1) with (map fst (x :: r1)) by reflexivity.
        rewrite last_opt_map, Hlast. reflexivity. }
    destruct (mk_bounded (start_of k w x) (end_of w z)) as (t & Ht & Hb & Hi).
    { unfold start_of, end_of. rewrite Forall_forall in Hlo, Hhi.
      pose proof (Hlo x (or_introl eq_refl)) as H1. pose proof (Hhi z Hz) as H2.
      destruct (Nat.eqb k 0), (tf_start w) as [s|], (tf_end w) as [e|];
      try specialize (H1 _ eq_refl); try specialize (H2 _ eq_refl); lia. }
    unfold start_of, end_of in Ht. rewrite Ht. unfold gen_cons. cbn [seq map hdf_chunks fst snd].
    eexists. split; [reflexivity|]. constructor.
    + simpl. apply app_nil_r.
    + exists (mkChunk (x :: r1) (if Nat.eqb n 0 then None else Some (firstn n post)) t), [], r1. split; reflexivity.
    + exact I.
    + constructor; [simpl; lia|constructor].
    + constructor; [|constructor]. exists pre, post. split; [exact Hrows|reflexivity].
    + simpl. exists (end_of w z). split; [exact Hb|reflexivity].
    + constructor; [exact Hi|constructor].
  - (* more chunks follow *)
    assert (Hlen1 : (c < length r1)%nat).
    { destruct Hd as [[-> _]|(-> & _ & Hd)]; [lia|].
      destruct (Nat.eq_dec (length r1) c) as [E|E]; [rewrite E, Nat.mod_same in Hd by lia; congruence|lia]. }
    assert (Hend : (if Nat.ltb (length pre + length r1 + d) (length pre + c) then (length pre + length r1 + d)%nat else (length pre + c)%nat) = (length pre + c)%nat).
    { destruct (Nat.ltb_spec (length pre + length r1 + d) (length pre + c)); lia. }
    rewrite Hend.
    rewrite ceil_div_step in Hm by lia. injection Hm as Hm.
    assert (Hm1 : (1 <= m)%nat).
    { rewrite Hm. destruct (Nat.le_gt_cases c (length r1 + d - c)) as [H|H];
        [rewrite ceil_div_step by lia; lia|rewrite ceil_div_small by lia; lia]. }
    assert (Hmore : Nat.ltb k (n_chunks - 1) = true) by (apply Nat.ltb_lt; lia).
    rewrite Hmore.
    (* split the run *)
    destruct (nth_error r1 (c - 1)) as [y|] eqn:Hy; [|apply nth_error_None in Hy; lia].
    destruct (nth_error_split r1 (c - 1) Hy) as (d1 & r2 & Hr & Hd1).
    assert (Hr2 : (1 <= length r2)%nat) by (rewrite Hr, app_length in Hlen1; simpl in Hlen1; lia).
    assert (Hsel : select rows (length pre) (S (length pre + c)) = x :: d1 ++ [y]).
    { rewrite Hrows, Hr. replace ((x :: d1 ++ y :: r2) ++ post) with ((x :: d1 ++ [y]) ++ r2 ++ post)
        by (simpl; rewrite <- !app_assoc; reflexivity).
      apply select_run. simpl. rewrite app_length. simpl. lia. }
    rewrite Hsel.
    assert (Hrows' : rows = pre ++ (x :: d1 ++ [y]) ++ (r2 ++ post)).
    { rewrite Hrows, Hr. simpl. rewrite <- !app_assoc. reflexivity. }
    assert (Hlook : look_ahead_rows rows (x :: d1 ++ [y]) n (S (length pre + c)) = if Nat.eqb n 0 then None else Some (firstn n (r2 ++ post))).
    { rewrite Hrows'. apply look_ahead_run; [discriminate|]. left. simpl. rewrite app_length. simpl. lia. }
    rewrite Hlook.
    replace (map fst (x :: d1 ++ [y])) with (fst x :: map fst (d1 ++ [y])) by reflexivity.
    rewrite (starts_of_first true k w (fst x) (map fst (d1 ++ [y])) (fst y)).
    2:{ replace (fst x :: map fst (d1 ++ [y])) with (map fst ((x :: d1) ++ [y])) by reflexivity.
        rewrite last_opt_map, last_opt_snoc. reflexivity. }
    assert (Hs2 : StronglySorted slt (x :: d1 ++ [y]) /\ StronglySorted slt (y :: r2)).
    { rewrite Hr in Hs. replace (x :: d1 ++ y :: r2) with ((x :: d1) ++ y :: r2) in Hs by reflexivity.
      pose proof Hs as Hs'. apply sorted_app in Hs'. destruct Hs' as (_ & H2 & _). split; [|exact H2].
      replace ((x :: d1) ++ y :: r2) with ((x :: d1 ++ [y]) ++ r2) in Hs by (simpl; rewrite <- app_assoc; reflexivity).
      apply sorted_app in Hs. destruct Hs as (H1 & _ & _). exact H1. }
    destruct Hs2 as [Hsd Hsr].
    assert (Hxy : fst x < fst y).
    { inversion Hsd as [|? ? _ Hf]; subst. rewrite Forall_forall in Hf. apply Hf.
      rewrite in_app_iff. right. left. reflexivity. }
    destruct (mk_bounded (start_of k w x) (fst y)) as (t & Ht & Hb & Hi).
    { unfold start_of. rewrite Forall_forall in Hlo. pose proof (Hlo x (or_introl eq_refl)) as H1.
      destruct (Nat.eqb k 0), (tf_start w) as [s|]; try specialize (H1 _ eq_refl); lia. }
    unfold start_of in Ht. rewrite Ht.
    assert (HF : forall Q, Forall Q (x :: r1) -> Forall Q (y :: r2)).
    { intros Q HQ. rewrite Hr in HQ. replace (x :: d1 ++ y :: r2) with ((x :: d1) ++ y :: r2) in HQ by reflexivity.
      apply Forall_app in HQ. exact (proj2 HQ). }
    destruct (IH (S k) (pre ++ x :: d1) y r2 post z) as (cs & Hcs & Hok).
    + rewrite Hrows, Hr. simpl. rewrite <- !app_assoc. reflexivity.
    + exact Hsr.
    + apply HF. exact Hlo.
    + apply HF. exact Hhi.
    + rewrite Hr in Hlast. replace (x :: d1 ++ y :: r2) with ((x :: d1) ++ y :: r2) in Hlast by reflexivity.
      assert (Hne : y :: r2 <> []) by discriminate. destruct (exists_last Hne) as (q & z' & Eq).
      rewrite Eq in *. rewrite app_assoc, last_opt_snoc in Hlast. rewrite last_opt_snoc. exact Hlast.
    + assert (Hl : length r2 = (length r1 - c)%nat) by (rewrite Hr, app_length; simpl; lia).
      destruct Hd as [[-> _]|(-> & Hp & Hd)]; [left; split; [reflexivity|lia]|].
      right. split; [reflexivity|]. split; [exact Hp|]. rewrite Hl, mod_step by lia. exact Hd.
    + rewrite Hm. f_equal. rewrite Hr, app_length. simpl. lia.
    + lia.
    + assert (Hpl : length (pre ++ x :: d1) = (length pre + c)%nat) by (rewrite app_length; simpl; lia).
      assert (Hl : (length pre + length r1 + d)%nat = (length pre + c + length r2 + d)%nat) by (rewrite Hr, app_length; simpl; lia).
      rewrite Hpl in Hcs. rewrite Hl, Hcs. unfold gen_cons; cbn [fst snd].
      eexists. split; [reflexivity|].
      destruct Hok as [O1 O2 O3 O4 O5 O6 O7]. constructor.
      * simpl. rewrite O1, Hr, <- app_assoc. reflexivity.
      * eexists _, cs, (d1 ++ [y]). split; reflexivity.
      * destruct O2 as (ch & rest & dd & -> & Hch). split; [|exact O3].
        exists y, (x :: d1), dd. split; [reflexivity|exact Hch].
      * constructor; [|exact O4]. simpl. rewrite app_length. simpl. lia.
      * constructor; [|exact O5]. exists pre, (r2 ++ post). split; [exact Hrows'|reflexivity].
      * simpl. exists (fst y). split; [exact Hb|exact O6].
      * constructor; [exact Hi|exact O7].
Qed.

(** An unbounded load of [k * c + 1] rows fails at its last chunk. *)
Lemma hdf_chunks_err {A} (rows : list (sample A)) w n c n_chunks : (1 <= c)%nat ->
  tf_start w = None -> tf_end w = None ->
  forall m k pre x r1,
  rows = pre ++ (x :: r1) ->
  StronglySorted slt (x :: r1) -> (length r1 mod c = 0)%nat ->
  m = ceil_div (length r1 + 1) c -> (k + m = n_chunks)%nat ->
  exists cs, hdf_chunks rows w n c n_chunks (length pre + length r1 + 1) k
               (map (fun j => (length pre + j * c)%nat) (seq 0 m)) = (cs, Some ValueError) /\
     concat (map (fun ch => tl (c_rows ch)) cs) = r1 /\
     (r1 <> [] -> exists ch rest d, cs = ch :: rest /\ c_rows ch = x :: d).
Proof.
  intros Hc Hws Hwe. induction m as [|m IH]; intros k pre x r1 Hrows Hs Hd Hm Hk.
  { exfalso. destruct (Nat.le_gt_cases c (length r1 + 1)) as [H|H];
      [rewrite ceil_div_step in Hm by lia|rewrite ceil_div_small in Hm by lia]; discriminate. }
  rewrite starts_step. cbn [hdf_chunks].
  destruct r1 as [|r r1'] eqn:Er.
  - assert (m = 0)%nat by (rewrite ceil_div_small in Hm by (simpl; lia); lia). subst m.
    assert (Hmore : Nat.ltb k (n_chunks - 1) = false) by (apply Nat.ltb_ge; lia). rewrite Hmore.
    assert (Hsel : forall e, (length pre + 1 <= e)%nat -> select rows (length pre) e = [x]).
    { intros e He. unfold select. rewrite Hrows, skipn_app, skipn_all2, Nat.sub_diag by lia. simpl skipn.
      rewrite app_nil_l. apply firstn_all2. simpl. lia. }
    rewrite Hsel.
    2:{ destruct (Nat.ltb_spec (length pre + length (@nil (sample A)) + 1) (length pre + c)); simpl; lia. }
    cbn [map].
    rewrite (starts_of_first false k w (fst x) [] (fst x)) by reflexivity.
    rewrite Hws, Hwe. assert (E : (if Nat.eqb k 0 then fst x else fst x) = fst x) by (destruct (Nat.eqb k 0); reflexivity).
    rewrite E, mk_err by lia.
    exists []. split; [reflexivity|]. split; [reflexivity|]. congruence.
  - rewrite <- Er in *. assert (Hr1 : (1 <= length r1)%nat) by (rewrite Er; simpl; lia).
    assert (Hcle : (c <= length r1)%nat).
    { destruct (Nat.le_gt_cases c (length r1)) as [H|H]; [exact H|]. rewrite Nat.mod_small in Hd by lia. lia. }
    clear Er.
    assert (Hend : (if Nat.ltb (length pre + length r1 + 1) (length pre + c) then (length pre + length r1 + 1)%nat else (length pre + c)%nat) = (length pre + c)%nat).
    { destruct (Nat.ltb_spec (length pre + length r1 + 1) (length pre + c)); lia. }
    rewrite Hend.
    rewrite ceil_div_step in Hm by lia. injection Hm as Hm.
    assert (Hm1 : (1 <= m)%nat).
    { rewrite Hm. destruct (Nat.le_gt_cases c (length r1 + 1 - c)) as [H|H];
        [rewrite ceil_div_step by lia; lia|rewrite ceil_div_small by lia; lia]. }
    assert (Hmore : Nat.ltb k (n_chunks - 1) = true) by (apply Nat.ltb_lt; lia).
    rewrite Hmore.
    destruct (nth_error r1 (c - 1)) as [y|] eqn:Hy; [|apply nth_error_None in Hy; lia].
    destruct (nth_error_split r1 (c - 1) Hy) as (d1 & r2 & Hr & Hd1).
    assert (Hsel : select rows (length pre) (S (length pre + c)) = x :: d1 ++ [y]).
    { rewrite Hrows, Hr. replace (x :: d1 ++ y :: r2) with ((x :: d1 ++ [y]) ++ r2)
        by (simpl; rewrite <- !app_assoc; reflexivity).
      apply select_run. simpl. rewrite app_length. simpl. lia. }
    rewrite Hsel.
    replace (map fst (x :: d1 ++ [y])) with (fst x :: map fst (d1 ++ [y])) by reflexivity.
    rewrite (starts_of_first true k w (fst x) (map fst (d1 ++ [y])) (fst y)).
    2:{ replace (fst x :: map fst (d1 ++ [y])) with (map fst ((x :: d1) ++ [y])) by reflexivity.
        rewrite last_opt_map, last_opt_snoc. reflexivity. }
    rewrite Hr in Hs.
    assert (Hsr : StronglySorted slt (y :: r2)).
    { replace (x :: d1 ++ y :: r2) with ((x :: d1) ++ y :: r2) in Hs by reflexivity.
      apply sorted_app in Hs. tauto. }
    assert (Hxy : fst x < fst y).
    { inversion Hs as [|? ? _ Hf]; subst. rewrite Forall_forall in Hf. apply Hf.
      rewrite in_app_iff. right. left. reflexivity. }
    destruct (mk_bounded (fst x) (fst y) Hxy) as (t & Ht & _).
    assert (E : (if Nat.eqb k 0 then match tf_start w with Some s => s | None => fst x end else fst x) = fst x)
      by (rewrite Hws; destruct (Nat.eqb k 0); reflexivity).
    rewrite E, Ht.
    assert (Hl : length r2 = (length r1 - c)%nat) by (rewrite Hr, app_length; simpl; lia).
    destruct (IH (S k) (pre ++ x :: d1) y r2) as (cs & Hcs & Ho1 & Ho2).
    + rewrite Hrows, Hr. simpl. rewrite <- !app_assoc. reflexivity.
    + exact Hsr.
    + rewrite Hl, mod_step by lia. exact Hd.
    + rewrite Hm. f_equal. lia.
    + lia.
    + assert (Hpl : length (pre ++ x :: d1) = (length pre + c)%nat) by (rewrite app_length; simpl; lia).
      rewrite Hpl in Hcs. replace (length pre + length r1 + 1)%nat with (length pre + c + length r2 + 1)%nat by lia.
      rewrite Hcs. unfold gen_cons; cbn [fst snd].
      eexists. split; [reflexivity|]. split.
      * simpl. rewrite Ho1, Hr, <- app_assoc. reflexivity.
      * intros _. eexists _, cs, (d1 ++ [y]). split; reflexivity.
Qed.

(** ** One section *)

Definition chain_ends {A} (w : tf) (m : list (sample A)) (s e : Z) : Prop :=
  (tf_start w = Some s \/ (tf_start w = None /\ first_time m s)) /\
  (tf_end w = Some e \/ (tf_end w = None /\ last_time m e)).

Lemma pass_delivers {A} rows n c w (x z : sample A) r1 cs : pass_ok rows n c 0 w x z r1 cs ->
  last_opt (x :: r1) = Some z ->
  delivers cs (x :: r1) c /\ (exists s e, chain s (map c_tf cs) e /\ chain_ends w (x :: r1) s e).
Proof.
  intros [O1 (ch & rest & d & -> & Hch) O3 O4 O5 O6] Hz. split.
  - split; [|split; assumption]. unfold unshared. rewrite Hch.
    simpl in O1. rewrite Hch in O1. simpl in O1. simpl. rewrite O1. reflexivity.
  - exists (start_of 0 w x), (end_of w z). split; [exact O6|]. unfold start_of, end_of. simpl.
    assert (Hl : last_time (x :: r1) (fst z)).
    { assert (Hne : x :: r1 <> []) by discriminate. destruct (exists_last Hne) as (q & z' & E).
      rewrite E in *. rewrite last_opt_snoc in Hz. injection Hz as ->. exists z, q. split; reflexivity. }
    split.
    + destruct (tf_start w); [left; reflexivity|right; split; [reflexivity|exists x, r1; split; reflexivity]].
    + destruct (tf_end w); [left; reflexivity|right; split; [reflexivity|exact Hl]].
Qed.

Lemma filter_run {A} (f : A -> bool) pre m post :
  Forall (fun x => f x = false) pre -> Forall (fun x => f x = true) m -> Forall (fun x => f x = false) post ->
  filter f (pre ++ m ++ post) = m.
Proof. intros H1 H2 H3. rewrite !filter_app, (filter_none f pre), (filter_all f m), (filter_none f post), app_nil_r by assumption. reflexivity. Qed.

Lemma last_opt_some {A} (x : A) l : exists z, last_opt (x :: l) = Some z.
Proof. revert x. induction l as [|y l IH]; intros x; [exists x; reflexivity|]. apply (IH y). Qed.

Lemma section_bounded {A} (rows : list (sample A)) window section w m n c :
  increasing rows -> (1 <= c)%nat -> intersection window section = Ok w -> tf_empty w = false ->
  (tf_start w <> None \/ tf_end w <> None) -> rows_of_period w rows m ->
  (m = [] -> hdf_load_section rows window section n c = ([mkChunk [] None w], None)) /\
  (length m = 1%nat -> hdf_load_section rows window section n c = ([], None)) /\
  ((2 <= length m)%nat -> exists cs, hdf_load_section rows window section n c = (cs, None) /\
     delivers cs m c /\ exists s e, chain s (map c_tf cs) e /\ chain_ends w m s e).
Proof.
  intros Hinc Hc Hw Hne Hb Hm. apply rows_of_period_filter in Hm. apply increasing_sorted in Hinc.
  destruct (period_run w rows Hinc) as (pre & m' & post & Hrows & F1 & F2 & F3).
  assert (Hmm : m = m') by (rewrite Hm, Hrows; apply filter_run; assumption). subst m'. clear Hm.
  unfold hdf_load_section. rewrite Hw, Hne.
  destruct (query_terms_cases w Hne) as [(H1 & H2 & _)|(q & Hq & _)]; [exfalso; destruct Hb; congruence|].
  rewrite Hq.
  assert (Hco : coords_from 0 (Some q) rows = seq (length pre) (length m)).
  { rewrite Hrows. pose proof (fun i => terms_hold_inTFcb w (Some q) i Hne Hq) as T.
    apply coords_run; eapply Forall_impl; try eassumption; cbv beta; intros r Hr; rewrite T; exact Hr. }
  rewrite Hco. destruct m as [|x r1]; [split; [reflexivity|split; [discriminate|simpl; lia]]|].
  pose proof (last_opt_seq (length pre) (length r1)) as HL. cbn [seq] in HL. cbn [length seq]. rewrite HL.
  unfold hdf_range. replace (Nat.eqb c 0) with false by (symmetry; apply Nat.eqb_neq; lia).
  unfold py_range. replace (length pre + length r1 - length pre)%nat with (length r1) by lia.
  split; [discriminate|]. split.
  - intros H. simpl in H. replace (length r1) with 0%nat by lia. rewrite ceil_div_0 by lia. reflexivity.
  - intros H. simpl in H. destruct (last_opt_some x r1) as [z Hz].
    rewrite Hrows in Hinc. apply sorted_app in Hinc. destruct Hinc as (_ & Hinc & _).
    apply sorted_app in Hinc. destruct Hinc as (Hs & _ & _).
    destruct (hdf_chunks_run rows w n c (ceil_div (length r1) c) 0 Hc (ceil_div (length r1) c) 0 pre x r1 post z) as (cs & Hcs & Hok).
    + exact Hrows.
    + exact Hs.
    + eapply Forall_impl; [|exact F2]. simpl. intros r Hr s Hs'. apply inTFcb_spec in Hr. destruct Hr as (_ & Hr & _). exact (Hr s Hs').
    + eapply Forall_impl; [|exact F2]. simpl. intros r Hr e He. apply inTFcb_spec in Hr. destruct Hr as (_ & _ & Hr). specialize (Hr e He). lia.
    + exact Hz.
    + left. split; [reflexivity|lia].
    + rewrite Nat.add_0_r. reflexivity.
    + lia.
    + rewrite Nat.add_0_r in Hcs. exists cs. split; [exact Hcs|]. exact (pass_delivers _ _ _ _ _ _ _ _ Hok Hz).
Qed.

Lemma section_unbounded {A} (rows : list (sample A)) window section w n c :
  increasing rows -> (1 <= c)%nat -> intersection window section = Ok w -> tf_empty w = false ->
  tf_start w = None -> tf_end w = None ->
  ((length rows <= 1)%nat -> hdf_load_section rows window section n c = ([mkChunk [] None section], None)) /\
  ((2 <= length rows)%nat -> ((length rows - 1) mod c <> 0)%nat ->
     exists cs, hdf_load_section rows window section n c = (cs, None) /\
     delivers cs rows c /\ exists s e, chain s (map c_tf cs) e /\ first_time rows s /\ last_time rows e) /\
  ((2 <= length rows)%nat -> ((length rows - 1) mod c = 0)%nat ->
     exists cs, hdf_load_section rows window section n c = (cs, Some ValueError) /\ unshared cs = rows).
Proof.
  intros Hinc Hc Hw Hne Hws Hwe. apply increasing_sorted in Hinc.
  unfold hdf_load_section. rewrite Hw, Hne.
  destruct (query_terms_cases w Hne) as [(_ & _ & Hq)|(q & _ & H)]; [|exfalso; tauto].
  rewrite Hq. split; [intros H; apply Nat.leb_le in H; rewrite H; reflexivity|].
  split; intros H Hmod.
  all: replace (Nat.leb (length rows) 1) with false by (symmetry; apply Nat.leb_gt; lia).
  all: unfold hdf_range; replace (Nat.eqb c 0) with false by (symmetry; apply Nat.eqb_neq; lia).
  all: unfold py_range; rewrite Nat.sub_0_r.
  all: destruct rows as [|x r1]; [simpl in H; lia|].
  all: replace (length (x :: r1) - 1)%nat with (length r1) in Hmod by (simpl; lia).
  all: replace (length (x :: r1)) with (length r1 + 1)%nat in * by (simpl; lia).
  - destruct (last_opt_some x r1) as [z Hz].
    destruct (hdf_chunks_run (x :: r1) w n c (ceil_div (length r1 + 1) c) 1 Hc (ceil_div (length r1 + 1) c) 0 [] x r1 [] z) as (cs & Hcs & Hok).
    + simpl. rewrite app_nil_r. reflexivity.
    + exact Hinc.
    + rewrite Forall_forall. intros; congruence.
    + rewrite Forall_forall. intros; congruence.
    + exact Hz.
    + right. split; [reflexivity|]. split; [reflexivity|exact Hmod].
    + reflexivity.
    + lia.
    + simpl length in Hcs. rewrite !Nat.add_0_l in Hcs. exists cs. split; [exact Hcs|].
      destruct (pass_delivers _ _ _ _ _ _ _ _ Hok Hz) as (D & s & e & Hch & He1 & He2).
      split; [exact D|]. exists s, e. split; [exact Hch|].
      split; [destruct He1 as [E|[_ E]]; [congruence|exact E]|destruct He2 as [E|[_ E]]; [congruence|exact E]].
  - destruct (hdf_chunks_err (x :: r1) w n c (ceil_div (length r1 + 1) c) Hc Hws Hwe (ceil_div (length r1 + 1) c) 0 [] x r1) as (cs & Hcs & Ho1 & Ho2).
    + reflexivity.
    + exact Hinc.
    + exact Hmod.
    + reflexivity.
    + lia.
    + simpl length in Hcs. rewrite !Nat.add_0_l in Hcs. exists cs. split; [exact Hcs|].
      destruct Ho2 as (ch & rest & d & -> & Hch); [intros ->; simpl in H; lia|].
      unfold unshared. rewrite Hch. simpl in Ho1. rewrite Hch in Ho1. simpl in Ho1. simpl. rewrite Ho1. reflexivity.
Qed.
