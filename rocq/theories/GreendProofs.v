(** Proofs about splitting a GREEND file (C109). *)
From Coq Require Import String Ascii Lia.
From Verif Require Import Base HtmlModel GreendModel GreendSpec.
Import List. Open Scope list_scope. Open Scope nat_scope.

Lemma starts_app p : forall s, starts p s = true <-> exists b, s = p ++ b.
Proof.
  induction p as [|a p IH]; intros s; [split; [exists s; reflexivity|reflexivity]|]. destruct s as [|x s]; cbn [starts]; [split; [discriminate|intros [b E]; discriminate]|]. rewrite Bool.andb_true_iff, Ascii.eqb_eq, IH. split.
  - intros [-> [b ->]]. exists b. reflexivity.
  - intros [b E]. injection E as -> ->. split; [reflexivity|exists b; reflexivity].
Qed.
Lemma contains_has p : forall s, contains p s = true <-> has p s.
Proof.
  unfold has. induction s as [|x s IH]; cbn [contains]; rewrite Bool.orb_true_iff, starts_app.
  - split; [intros [[b E]|E]; [exists [], b; exact E|discriminate]|]. intros (a & b & E). left. destruct a; [exists b; exact E|discriminate].
  - rewrite IH. split.
    + intros [[b E]|(a & b & ->)]; [exists [], b; exact E|exists (x :: a), b; reflexivity].
    + intros (a & b & E). destruct a as [|y a]; [left; exists b; exact E|]. right. injection E as _ ->. exists a, b. reflexivity.
Qed.
Lemma from_start s : starts (lit "time") s = true -> from_time s = s.
Proof. intros H. destruct s; [discriminate|]. cbn [from_time]. rewrite H. reflexivity. Qed.
Lemma from_suffix : forall s, contains (lit "time") s = true -> starts (lit "time") (from_time s) = true /\ exists a, s = a ++ from_time s.
Proof.
  induction s as [|x s IH]; intros H; [discriminate|]. cbn [from_time]. destruct (starts (lit "time") (x :: s)) eqn:E; [split; [exact E|exists []; reflexivity]|].
  cbn [contains] in H. rewrite E in H. destruct (IH H) as [A1 [a A2]]. split; [exact A1|]. exists (x :: a). cbn [app]. rewrite <- A2. reflexivity.
Qed.
Lemma heading_spec l : (heading l = None <-> ~ has (lit "time") (no_nulls l)) /\
  (forall h, heading l = Some h -> exists front rest, no_nulls l = front ++ h /\ h = lit "time" ++ rest).
Proof.
  unfold heading. destruct (contains (lit "time") (no_nulls l)) eqn:C.
  - split; [split; [discriminate|intros N; exfalso; apply N, contains_has, C]|]. intros h E. injection E as <-. destruct (from_suffix _ C) as [S1 [a E]]. apply starts_app in S1 as [b S1]. exists a, b. split; assumption.
  - split; [split; [|reflexivity]|discriminate]. intros _ H. apply contains_has in H. congruence.
Qed.
Lemma text_eqb_spec a b : text_eqb a b = true <-> a = b.
Proof. unfold text_eqb. destruct (list_eq_dec ascii_dec a b); split; congruence. Qed.

(** One line, in terms of [heading]. *)
Definition fresh {F} (read : list ascii -> res F) (st : blocks F) (h : list ascii) : res (blocks F) :=
  do dfs <- process_block read st; Ok (mkBlocks (Some h) (Some (strip h)) dfs).
Lemma do_line_heading {F} (read : list ascii -> res F) st l : do_line read false st l =
  match heading l with
  | Some h => match b_header st with Some p => if text_eqb p (strip h) then Ok st else fresh read st h | None => fresh read st h end
  | None => match b_data st with None => Err AttributeError | Some text => Ok (mkBlocks (Some (text ++ no_nulls l)) (b_header st) (b_dfs st)) end
  end.
Proof.
  unfold do_line, heading, fresh, write_line. cbn [andb b_data b_header b_dfs app]. destruct (contains (lit "time") (no_nulls l)) eqn:C; [|reflexivity].
  replace (if starts (lit "time") (no_nulls l) then no_nulls l else from_time (no_nulls l)) with (from_time (no_nulls l)) by (destruct (starts (lit "time") (no_nulls l)) eqn:S1; [apply from_start, S1|reflexivity]). reflexivity.
Qed.
Lemma heading_starts l h : heading l = Some h -> starts (lit "time") h = true.
Proof. intros E. destruct (proj2 (heading_spec l) h E) as (_ & r & _ & ->). apply starts_app. exists r. reflexivity. Qed.

Lemma go_blocks {F} (read : list ascii -> res F) : forall lines text p dfs frames, do_lines read false (mkBlocks (Some text) (Some p) dfs) lines = Ok frames ->
  exists more f0 bs fs, frames = dfs ++ f0 :: fs /\ read (text ++ concat more) = Ok f0 /\ Forall2 (fun b f => read (block_text b) = Ok f) bs fs /\
    map (pair p) more ++ flat_map block_readings bs = readings p lines /\ new_headers (Some p) bs.
Proof.
  induction lines as [|l lines IH]; intros text p dfs frames H; cbn [do_lines] in H.
  - unfold process_block in H. cbn [b_data b_dfs] in H. destruct (read text) as [f|] eqn:R; [|discriminate H]. injection H as <-. exists [], f, [], []. cbn. rewrite app_nil_r. repeat split; [exact R|constructor].
  - rewrite do_line_heading in H. cbn [b_header b_data b_dfs] in H. cbn [readings]. destruct (heading l) as [h|] eqn:HD.
    + destruct (text_eqb p (strip h)) eqn:E.
      * cbn [bind] in H. apply text_eqb_spec in E. subst p. apply IH, H.
      * unfold fresh, process_block in H. cbn [b_data b_dfs] in H. destruct (read text) as [f|] eqn:R; [|discriminate H]. cbn [bind] in H.
        destruct (IH _ _ _ _ H) as (more & f0 & bs & fs & E1 & E2 & E3 & E4 & E5). exists [], f, ((h, more) :: bs), (f0 :: fs). cbn [concat map app flat_map]. rewrite app_nil_r. split; [rewrite E1, <- app_assoc; reflexivity|]. split; [exact R|]. split; [constructor; [exact E2|exact E3]|]. split; [exact E4|].
        cbn [new_headers fst]. split; [eapply heading_starts; exact HD|]. split; [|exact E5]. intros X. injection X as ->. assert (text_eqb (strip h) (strip h) = true) by (apply text_eqb_spec; reflexivity). congruence.
    + cbn [bind] in H. destruct (IH _ _ _ _ H) as (more & f0 & bs & fs & E1 & E2 & E3 & E4 & E5). exists (no_nulls l :: more), f0, bs, fs. cbn [concat map app]. rewrite app_assoc. repeat split; try assumption. f_equal. exact E4.
Qed.
Lemma blocks_keep {F} (read : list ascii -> res F) first lines h frames : heading first = Some h -> get_blocks read false (first :: lines) = Ok frames ->
  exists bs, Forall2 (fun b f => read (block_text b) = Ok f) bs frames /\ flat_map block_readings bs = readings (strip h) lines /\ new_headers None bs /\ bs <> [].
Proof.
  intros HD H. unfold get_blocks in H. cbn [do_lines] in H. rewrite do_line_heading, HD in H. cbn [b_header] in H. unfold fresh, process_block in H. cbn [b_data b_dfs bind] in H.
  destruct (go_blocks read _ _ _ _ _ H) as (more & f0 & bs & fs & -> & E2 & E3 & E4 & E5). exists ((h, more) :: bs). split; [constructor; assumption|]. split; [exact E4|]. split; [|discriminate].
  cbn [new_headers fst]. split; [eapply heading_starts; exact HD|]. split; [discriminate|exact E5].
Qed.
Lemma go_errors {F} (read : list ascii -> res F) e : forall lines text p dfs, do_lines read false (mkBlocks (Some text) (Some p) dfs) lines = Err e -> exists t, read t = Err e.
Proof.
  induction lines as [|l lines IH]; intros text p dfs H; cbn [do_lines] in H.
  - unfold process_block in H. cbn [b_data b_dfs] in H. destruct (read text) as [f|] eqn:R; [discriminate H|]. injection H as ->. exists text. exact R.
  - rewrite do_line_heading in H. cbn [b_header b_data b_dfs] in H. destruct (heading l) as [h|].
    + destruct (text_eqb p (strip h)); [eapply IH; exact H|]. unfold fresh, process_block in H. cbn [b_data b_dfs] in H. destruct (read text) as [f|] eqn:R; [eapply IH; exact H|]. cbn [bind] in H. injection H as ->. exists text. exact R.
    + eapply IH. exact H.
Qed.
Lemma blocks_errors {F} (read : list ascii -> res F) first lines h e : heading first = Some h -> get_blocks read false (first :: lines) = Err e -> exists t, read t = Err e.
Proof.
  intros HD H. unfold get_blocks in H. cbn [do_lines] in H. rewrite do_line_heading, HD in H. cbn [b_header] in H. unfold fresh, process_block in H. cbn [b_data b_dfs bind] in H. eapply go_errors. exact H.
Qed.
Lemma blocks_none {F} (read : list ascii -> res F) first lines : heading first = None -> get_blocks read false (first :: lines) = Err AttributeError.
Proof. intros HD. unfold get_blocks. cbn [do_lines]. rewrite do_line_heading, HD. reflexivity. Qed.
Lemma blocks_refused {F} (read : list ascii -> res F) first lines h : (forall t, read t = Err TypeError) -> heading first = Some h -> get_blocks read false (first :: lines) = Err TypeError.
Proof.
  intros R HD. destruct (get_blocks read false (first :: lines)) as [fs|e] eqn:E.
  - destruct (blocks_keep read first lines h fs HD E) as (bs & E1 & _ & _ & N). destruct E1 as [|b f bs fs X _]; [congruence|]. rewrite R in X. discriminate.
  - destruct (blocks_errors read first lines h e HD E) as [t X]. rewrite R in X. congruence.
Qed.

(** The two special files. *)
Lemma special_heading {F} (read : list ascii -> res F) st l : (forall h, heading l = Some h -> dropped (no_nulls l) = false /\ dropped h = false) ->
  do_line read true st l = if dropped (no_nulls l) then Ok st else do_line read false st l.
Proof.
  intros H. unfold do_line, write_line, heading in *. cbn [andb b_data b_header b_dfs]. destruct (contains (lit "time") (no_nulls l)) eqn:C; [|destruct (dropped (no_nulls l)); reflexivity].
  replace (if starts (lit "time") (no_nulls l) then no_nulls l else from_time (no_nulls l)) with (from_time (no_nulls l)) by (destruct (starts (lit "time") (no_nulls l)) eqn:S1; [apply from_start, S1|reflexivity]).
  destruct (H _ eq_refl) as [-> ->]. reflexivity.
Qed.
Lemma special_go {F} (read : list ascii -> res F) : forall lines st, (forall l h, In l lines -> heading l = Some h -> dropped (no_nulls l) = false /\ dropped h = false) ->
  do_lines read true st lines = do_lines read false st (filter (fun l => negb (dropped (no_nulls l))) lines).
Proof.
  induction lines as [|l lines IH]; intros st H; [reflexivity|]. cbn [do_lines filter]. rewrite special_heading by (intros h; apply H; left; reflexivity).
  assert (H' : forall l0 h, In l0 lines -> heading l0 = Some h -> dropped (no_nulls l0) = false /\ dropped h = false) by (intros l0 h I; apply H; right; exact I).
  destruct (dropped (no_nulls l)); cbn [negb bind]; [apply IH, H'|]. cbn [do_lines]. destruct (do_line read false st l); [|reflexivity]. cbn [bind]. apply IH, H'.
Qed.

Lemma lstrip_ok c : forall s, exists a, s = a ++ lstrip_of c s /\ Forall (fun x => c x = true) a /\ (forall x r, lstrip_of c s = x :: r -> c x = false).
Proof.
  induction s as [|x s (a & E & FA & N)]; [exists []; repeat split; [constructor|discriminate]|]. cbn [lstrip_of]. destruct (c x) eqn:C.
  - exists (x :: a). cbn [app]. rewrite <- E. repeat split; [constructor; assumption|exact N].
  - exists []. repeat split; [constructor|]. intros y r H. injection H as <- _. exact C.
Qed.
Lemma strip_ok c s : trimmed c s (strip_of c s).
Proof.
  unfold trimmed, strip_of. destruct (lstrip_ok c s) as (a & E & FA & N). set (t := lstrip_of c s) in *. destruct (lstrip_ok c (rev t)) as (b & E2 & FB & N2). set (u := lstrip_of c (rev t)) in *.
  assert (ET : t = rev u ++ rev b) by (rewrite <- (rev_involutive t), E2, rev_app_distr; reflexivity). exists a, (rev b). split; [rewrite <- ET; exact E|]. split; [apply Forall_app; split; [exact FA|apply Forall_rev, FB]|]. split.
  - intros x r H. apply (N x (r ++ rev b)). rewrite ET, H. reflexivity.
  - intros x r H. apply (N2 x (rev r)). rewrite <- (rev_involutive u), H, rev_app_distr. reflexivity.
Qed.
