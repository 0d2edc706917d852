(** Lemmas on the download of Dataport: one stretch of a building. *)
From Coq Require Import String QArith Lia.
From Verif Require Import Base LocalModel LocalSpec LocalProofs DownloadModel DownloadSpec DownloadProofs.
Import List. Open Scope list_scope. Open Scope nat_scope.

Definition keeps (f : option Q -> option Q) : Prop := forall x, f x = None <-> x = None.
Definition frame (f : option Q -> option Q) (R : list (Z * row)) : list (Z * (string -> option Q)) :=
  map (fun x => (fst x, fun c => f (r_cell (snd x) c))) R.
Lemma has_reading : forall f R c, keeps f ->
  existsb (fun x => match snd x c with Some _ => true | None => false end) (frame f R) = existsb (fun x => match r_cell (snd x) c with Some _ => true | None => false end) R.
Proof.
  intros f R c K. unfold frame. induction R as [|[u r] R IH]; [reflexivity|]. cbn [map existsb fst snd]. rewrite IH. f_equal.
  specialize (K (r_cell r c)). destruct (r_cell r c), (f _); intuition congruence.
Qed.
Lemma column_readings : forall f R c, map (fun x => (fst x, snd x c)) (frame f R) = readings f R c.
Proof. intros f R c. unfold frame, readings. rewrite map_map. reflexivity. Qed.
Lemma ignored_same : forall c, listed c feed_ignore = ignored c. Proof. reflexivity. Qed.

Definition count (apps : list appliance) (ty : string) : nat := length (filter (fun x => String.eqb (a_type x) ty) apps).
Definition sound (s : feeds) : Prop :=
  (forall ty, match dget String.eqb (f_counter s) ty with Some k => k | None => 0 end = count (f_apps s) ty) /\
  (forall a, In a (f_apps s) -> kind (a_name a) = Some (Some (a_type a), a_room a)) /\
  (forall pre a post, f_apps s = pre ++ a :: post -> a_instance a = S (count pre (a_type a))).
Lemma count_app : forall a b ty, count (a ++ b) ty = count a ty + count b ty.
Proof. intros a b ty. unfold count. now rewrite filter_app, app_length. Qed.
Lemma last_or : forall {A} (l : list A) x pre a post, l ++ [x] = pre ++ a :: post ->
  (post = [] /\ a = x /\ pre = l) \/ exists post', post = post' ++ [x] /\ l = pre ++ a :: post'.
Proof.
  intros A l x pre a post E. destruct (@exists_last _ (a :: post)) as (p & y & Q); [discriminate|].
  rewrite Q in E. rewrite app_assoc in E. apply app_inj_tail in E. destruct E as [E <-].
  destruct p as [|a' p]; cbn in Q.
  - injection Q as <- ->. left. rewrite app_nil_r in E. auto.
  - injection Q as <- ->. right. exists p. auto.
Qed.
Lemma sound_app : forall t ms ms' apps cnt c m ty room k t', sound (mkFeeds t ms apps cnt) -> dget String.eqb feed_mapping c = Some (Some ty, room) ->
  k = S (match dget String.eqb cnt ty with Some k => k | None => 0 end) ->
  sound (mkFeeds t' ms' (apps ++ [mkApp c m ty room k]) (dset String.eqb cnt ty k)).
Proof.
  intros t ms ms' apps cnt c m ty room k t' (C & I & N) M K. cbn [f_counter f_apps] in *. rewrite (C ty) in K. split; [|split]; cbn [f_counter f_apps].
  - intros ty'. rewrite (dget_dset String.eqb String.eqb_eq), count_app. unfold count at 2. cbn [filter a_type].
    destruct (String.eqb ty ty') eqn:E; cbn [length]; [apply String.eqb_eq in E; subst ty'; lia|]. rewrite C. lia.
  - intros a H. apply in_app_iff in H. destruct H as [H|[<-|[]]]; [now apply I|]. cbn [a_name a_type a_room]. rewrite kind_dget. exact M.
  - intros pre a post E. apply last_or in E. destruct E as [(-> & -> & ->)|(post' & -> & E)]; [cbn [a_instance a_type]; exact K|]. now apply (N pre a post').
Qed.

Definition at_place (f : option Q -> option Q) (R : list (Z * row)) (l : list string) (m k : nat) : list (Z * option Q) :=
  if Nat.ltb k m then [] else match nth_error l (k - m) with Some c => readings f R c | None => [] end.
Lemma place_cons : forall f R c l m k, at_place f R (c :: l) m k = (if Nat.eqb m k then readings f R c else []) ++ at_place f R l (S m) k.
Proof.
  intros f R c l m k. unfold at_place. destruct (Nat.eqb m k) eqn:E.
  - apply Nat.eqb_eq in E. subst k. rewrite Nat.ltb_irrefl, Nat.sub_diag. assert (B : (m <? S m) = true) by (apply Nat.ltb_lt; lia). rewrite B. now rewrite app_nil_r.
  - apply Nat.eqb_neq in E. cbn [List.app]. destruct (k <? m) eqn:A.
    + apply Nat.ltb_lt in A. assert (B : (k <? S m) = true) by (apply Nat.ltb_lt; lia). now rewrite B.
    + apply Nat.ltb_ge in A. assert (B : (k <? S m) = false) by (apply Nat.ltb_ge; lia). rewrite B. replace (k - m) with (S (k - S m)) by lia. reflexivity.
Qed.

Definition fed (n m : nat) (l : list string) (f : option Q -> option Q) (R : list (Z * row)) (s s' : feeds) : Prop :=
  (forall n' k, rows_at (f_tables s') (n', k) = rows_at (f_tables s) (n', k) ++ (if Nat.eqb n n' then at_place f R l m k else [])) /\
  f_meters s' = f_meters s ++ combine (seq m (length l)) (map (fun c => String.eqb c "use") l) /\
  map (fun a => (a_name a, a_meter a)) (f_apps s') = map (fun a => (a_name a, a_meter a)) (f_apps s) ++ filter (fun x => negb (String.eqb (fst x) "use")) (combine l (seq m (length l))) /\
  (sound s -> sound s').
Lemma feed_ok : forall cs n m R f s s', keeps f -> feed_columns n m cs (frame f R) s = Ok s' -> fed n m (metered cs R) f R s s'.
Proof.
  induction cs as [|c cs IH]; intros n m R f s s' K H; cbn [feed_columns] in H.
  - injection H as <-. unfold fed. cbn. split; [|split; [now rewrite app_nil_r|split; [now rewrite app_nil_r|auto]]].
    intros n' k. unfold at_place. destruct (n =? n'); [|now rewrite app_nil_r]. destruct (k <? m); [now rewrite app_nil_r|]. destruct (k - m); now rewrite app_nil_r.
  - rewrite (has_reading f R c K), ignored_same, column_readings in H. unfold metered. cbn [filter]. destruct (existsb _ R && negb (ignored c)) eqn:E; [|now apply IH].
    fold (metered cs R).
    assert (T : forall n' k, rows_at (put (f_tables s) (n, m) (readings f R c)) (n', k) ++ (if n =? n' then at_place f R (metered cs R) (S m) k else [])
                  = rows_at (f_tables s) (n', k) ++ (if n =? n' then at_place f R (c :: metered cs R) m k else [])).
    { intros n' k. rewrite rows_put, place_cons. unfold key_eqb. cbn [fst snd]. destruct (n =? n'); cbn [andb]; rewrite <- app_assoc; [reflexivity|]. reflexivity. }
    destruct (String.eqb c "use") eqn:U.
    + apply IH in H; [|exact K]. destruct H as (A & B & C & D). cbn [f_tables f_meters f_apps] in *. split; [|split; [|split]].
      * intros n' k. rewrite A. apply T.
      * rewrite B. cbn [length seq map combine]. rewrite U, <- app_assoc. reflexivity.
      * rewrite C. cbn [length seq combine filter fst]. rewrite U. reflexivity.
      * intros S0. apply D. exact S0.
    + destruct (dget String.eqb feed_mapping c) as [[[ty|] room]|] eqn:M; try discriminate H.
      apply IH in H; [|exact K]. destruct H as (A & B & C & D). cbn [f_tables f_meters f_apps] in *. split; [|split; [|split]].
      * intros n' k. rewrite A. apply T.
      * rewrite B. cbn [length seq map combine]. rewrite U, <- app_assoc. reflexivity.
      * rewrite C. cbn [length seq combine filter fst]. rewrite U. cbn [negb]. rewrite map_app, <- app_assoc. reflexivity.
      * intros S0. apply D. destruct s as [t ms apps cnt]. cbn [f_counter f_apps] in *. now apply (sound_app t ms _ apps cnt c m ty room _ _ S0 M).
Qed.

Lemma in_meters : forall (l : list string) m p site, In (p, site) (combine (seq m (length l)) (map (fun c => String.eqb c "use") l)) <->
  exists k c, p = m + k /\ nth_error l k = Some c /\ (site = true <-> c = "use"%string).
Proof.
  induction l as [|c l IH]; intros m p site; cbn [length seq map combine In].
  - split; [intros []|]. intros (k & c & _ & N & _). destruct k; discriminate.
  - split.
    + intros [[= <- <-]|H].
      * exists 0, c. split; [lia|]. split; [reflexivity|]. apply String.eqb_eq.
      * apply IH in H. destruct H as (k & c' & -> & N & S0). exists (S k), c'. split; [lia|]. auto.
    + intros ([|k] & c' & -> & N & S0).
      * left. injection N as <-. f_equal; [lia|]. apply Bool.eq_true_iff_eq. rewrite String.eqb_eq. symmetry. exact S0.
      * right. apply IH. exists k, c'. split; [lia|]. auto.
Qed.

Lemma scaled_keeps : forall table, keeps (scaled table).
Proof. intros table x. unfold scaled. destruct (found_later _ _); destruct x; cbn; split; congruence. Qed.
Lemma frame_of : forall (us : list Z) rs table R, combine us rs = R -> length us = length rs ->
  combine us (map (fun r => fun c => scaled table (r_cell r c)) rs) = frame (scaled table) R.
Proof.
  intros us rs table R <-. revert rs. induction us as [|u us IH]; intros [|r rs] L; try discriminate; [reflexivity|]. cbn [map combine frame fst snd]. f_equal. apply IH. now injection L.
Qed.

(** One stretch adds to the building's meters, and makes its metadata. *)
Definition adds (n : nat) (T : nat -> list (Z * option Q)) (o o' : out) : Prop :=
  forall n' k, stored o' n' k = stored o n' k ++ (if Nat.eqb n n' then T k else []).
Lemma hdf_ok : forall z table cs rows n b o o' lo hi, regular z -> whole_zone z -> whole lo -> whole hi -> (forall r, In r rows -> whole (r_stamp r)) ->
  to_hdf z table cs (query z b rows (lo, (hi - sec)%Z)) n b o = Ok o' ->
  adds n (part (scaled table) cs (taken z b lo hi rows)) o o' /\
  (exists md, metadata o' n = Some md /\ describes n b (metered cs (taken z b lo hi rows)) md) /\
  (forall n', n' <> n -> metadata o' n' = metadata o n').
Proof.
  intros z table cs rows n b o o' lo hi R Z L H W E. unfold to_hdf in E.
  destruct (mapM _ _) as [us|] eqn:M; [|discriminate]. cbn [bind] in E.
  destruct (query_taken z b lo hi rows us R Z L H W M) as [C LE].
  rewrite (frame_of us _ table _ C LE) in E. destruct (feed_columns _ _ _ _ _) as [s|] eqn:F; [|discriminate]. cbn [bind] in E. injection E as <-.
  apply feed_ok in F; [|apply scaled_keeps]. destruct F as (A & B & D & S). cbn [f_tables f_meters f_apps List.app map] in *.
  split; [|split].
  - intros n' k. rewrite !stored_rows. cbn [o_tables]. rewrite A. f_equal. destruct (n =? n'); [|reflexivity]. unfold at_place, part. destruct k as [|k]; [reflexivity|].
    cbn [Nat.ltb Nat.leb]. rewrite Nat.sub_1_r. reflexivity.
  - exists (mkMeta n b (f_meters s) (f_apps s)). rewrite metadata_dget. cbn [o_yaml]. rewrite (dget_dset Nat.eqb Nat.eqb_eq), Nat.eqb_refl. split; [reflexivity|].
    destruct S as (S1 & S2 & S3). { split; [intros ty; reflexivity|]. split; [intros a []|]. intros [|] ? ? Q; discriminate Q. }
    unfold describes. cbn [b_instance b_name b_meters b_apps]. split; [reflexivity|]. split; [reflexivity|]. split; [|auto].
    intros m site. rewrite B. rewrite in_meters. reflexivity.
  - intros n' N. rewrite !metadata_dget. cbn [o_yaml]. rewrite (dget_dset Nat.eqb Nat.eqb_eq). destruct (n =? n') eqn:Q; [|reflexivity]. apply Nat.eqb_eq in Q. congruence.
Qed.
