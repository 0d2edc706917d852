(** Proofs about the display of metadata (C107). *)
From Coq Require Import Ascii String Lia Arith.
From Verif Require Import Base HtmlModel HtmlSpec.
Import List.
Open Scope list_scope.
Open Scope nat_scope.

Section ValueInd.
  Variable P : value -> Prop.
  Hypothesis I : forall i, P (VItem i).
  Hypothesis L : forall l, P (VList l).
  Hypothesis D : forall d, Forall (fun kv => P (snd kv)) d -> P (VDict d).
  Fixpoint value_ind' (v : value) : P v :=
    match v with
    | VItem i => I i
    | VList l => L l
    | VDict d => D d ((fix go d := match d return Forall (fun kv => P (snd kv)) d with
                                   | [] => Forall_nil _
                                   | kv :: r => Forall_cons kv (value_ind' (snd kv)) (go r)
                                   end) d)
    end.
End ValueInd.

(** Reading a page piece by piece. *)
Definition adds (page : text) (doms : list dom) : Prop :=
  forall rest st now, build (tokens None (page ++ rest)) st now = build (tokens None rest) st (now ++ doms).
Lemma adds_nil : adds [] [].
Proof. intros rest st now. rewrite app_nil_r. reflexivity. Qed.
Lemma adds_app p q a b : adds p a -> adds q b -> adds (p ++ q) (a ++ b).
Proof. intros A B rest st now. rewrite <- app_assoc, A, B, app_assoc. reflexivity. Qed.
Lemma adds_browser p a : adds p a -> browser p = Some a.
Proof. intros A. unfold browser. pose proof (A [] [] []) as H. rewrite app_nil_r in H. exact H. Qed.
Lemma adds_plain s : plain_text s -> adds s (chars s).
Proof.
  induction s as [|c s IH]; intros H; [exact adds_nil|]. inversion H as [|? ? (A & _) H2]; subst. intros rest st now.
  cbn [List.app tokens]. destruct (Ascii.eqb_spec c "<"); [contradiction|]. cbn [build]. rewrite (IH H2), <- app_assoc. reflexivity.
Qed.
Definition no_gt (s : text) : Prop := Forall (fun c => c <> ">"%char) s.
Lemma tokens_tag t r : no_gt t -> forall a, tokens (Some a) (t ++ ">"%char :: r) = TTag (a ++ t) :: tokens None r.
Proof.
  induction t as [|c t IH]; intros H a; cbn [List.app tokens].
  - rewrite app_nil_r. reflexivity.
  - inversion H; subst. destruct (Ascii.eqb_spec c ">"); [contradiction|]. rewrite (IH H3), <- app_assoc. reflexivity.
Qed.
Lemma adds_elem c t n a body doms : no_gt (c :: t) -> c <> "/"%char -> name_of (c :: t) = (n, a) -> no_gt n -> adds body doms ->
  adds ("<"%char :: c :: t ++ ">"%char :: body ++ "<"%char :: "/"%char :: n ++ [">"%char]) [DElem n a doms].
Proof.
  intros G S N GN B rest st now. cbn [List.app]. change (c :: (t ++ ">"%char :: body ++ "<"%char :: "/"%char :: n ++ [">"%char]) ++ rest) with ((c :: t ++ ">"%char :: body ++ "<"%char :: "/"%char :: n ++ [">"%char]) ++ rest).
  replace ((c :: t ++ ">"%char :: body ++ "<"%char :: "/"%char :: n ++ [">"%char]) ++ rest) with ((c :: t) ++ ">"%char :: (body ++ "<"%char :: "/"%char :: n ++ ">"%char :: rest)).
  2:{ cbn [List.app]. rewrite <- !app_assoc. cbn [List.app]. rewrite <- !app_assoc. cbn [List.app]. rewrite <- !app_assoc. reflexivity. }
  cbn [tokens Ascii.eqb]. change (Ascii.eqb "<" "<") with true. cbn [Bool.eqb]. rewrite (tokens_tag _ _ G). change ([] ++ c :: t) with (c :: t). cbn [build].
  destruct (Ascii.eqb_spec c "/"); [contradiction|]. rewrite N. cbn [fst snd]. rewrite B. cbn [tokens].
  change (Ascii.eqb "<" "<") with true. cbn [List.app]. change (Ascii.eqb "/" ">") with false.
  cbv iota. rewrite (tokens_tag n rest GN). cbn [List.app build].
  change (Ascii.eqb "/" "/") with true. cbv iota. destruct (list_eq_dec ascii_dec n n); [reflexivity|contradiction].
Qed.

(** URLs. *)
Lemma url_char_ok c : url_char c = true <-> in_url c.
Proof.
  unfold url_char, blank, in_url. rewrite andb_true_iff, !negb_true_iff, !orb_false_iff, !andb_false_iff, !Nat.leb_gt, !Nat.eqb_neq.
  destruct (Ascii.eqb_spec c ")") as [->|N]; split; intros H; try (destruct H as [_ X]; congruence || discriminate X).
  - split; [lia|exact N].
  - destruct H as [H _]. split; [repeat split; lia|reflexivity].
Qed.
Lemma run_ok s u r : run s = (u, r) -> s = u ++ r /\ Forall in_url u /\ ended r.
Proof.
  revert u r. induction s as [|c s IH]; intros u r; cbn [run].
  - intros E. injection E as <- <-. repeat split; constructor.
  - destruct (url_char c) eqn:C.
    + destruct (run s) as [u' r'] eqn:R. intros E. injection E as <- <-. destruct (IH _ _ eq_refl) as (-> & A & B). repeat split; auto. constructor; [apply url_char_ok; exact C|exact A].
    + intros E. injection E as <- <-. repeat split; [constructor|]. cbn [ended]. rewrite <- url_char_ok, C. discriminate.
Qed.
Lemma run_longest v r : Forall in_url v -> exists w r', run (v ++ r) = (v ++ w, r').
Proof.
  induction v as [|c v IH]; intros H.
  - cbn [List.app]. destruct (run r) as [w r']. exists w, r'. reflexivity.
  - inversion H; subst. destruct (IH H3) as (w & r' & E). exists w, r'. cbn [List.app run]. rewrite (proj2 (url_char_ok c) H2), E. reflexivity.
Qed.
Lemma starts_ok p s : starts p s = true <-> exists r, s = p ++ r.
Proof.
  revert s. induction p as [|a p IH]; intros s; cbn [starts].
  - split; [intros _; exists s; reflexivity|reflexivity].
  - destruct s as [|b s]; [split; [discriminate|intros (r & E); discriminate E]|]. rewrite andb_true_iff, IH, Ascii.eqb_eq. split.
    + intros (-> & r & ->). exists r. reflexivity.
    + intros (r & E). cbn [List.app] in E. injection E as -> ->. split; [reflexivity|]. exists r. reflexivity.
Qed.
Lemma match_some s u r : match_url s = Some (u, r) -> s = u ++ r /\ url u /\ ended r.
Proof.
  unfold match_url. destruct (starts (lit "http") s) eqn:E; [|discriminate]. apply starts_ok in E. destruct E as [x ->]. change (skipn 4 (lit "http" ++ x)) with x.
  destruct (run x) as [[|c v] r'] eqn:R; [discriminate|]. intros E. injection E as <- <-. apply run_ok in R. destruct R as (-> & A & B). split; [reflexivity|]. split; [|exact B]. exists (c :: v). repeat split; [discriminate|exact A].
Qed.
Lemma match_none s : match_url s = None -> ~ exists u r, url u /\ s = u ++ r.
Proof.
  unfold match_url. intros M (u & r & (v & -> & NE & F) & ->). rewrite <- app_assoc in M. rewrite (proj2 (starts_ok (lit "http") (lit "http" ++ v ++ r))) in M by (exists (v ++ r); reflexivity).
  change (skipn 4 (lit "http" ++ v ++ r)) with (v ++ r) in M. destruct (run_longest v r F) as (w & r' & E). rewrite E in M. destruct v; [contradiction|discriminate M].
Qed.
Lemma skip_ok a r : sub_urls (length a) (a ++ r) = sub_urls 0 r.
Proof. induction a as [|c a IH]; [reflexivity|]. cbn [length List.app sub_urls]. exact IH. Qed.
Lemma sub_cons c s : sub_urls 0 (c :: s) = match match_url (c :: s) with Some (u, _) => anchor u ++ sub_urls (pred (length u)) s | None => c :: sub_urls 0 s end.
Proof. reflexivity. Qed.
Lemma sub_none s : contains (lit "http") s = false -> sub_urls 0 s = s.
Proof.
  induction s as [|c s IH]; intros H; [reflexivity|]. cbn [contains] in H. apply orb_false_iff in H. destruct H as [H1 H2]. rewrite sub_cons. unfold match_url. rewrite H1. rewrite (IH H2). reflexivity.
Qed.
Lemma format_sub s : format_string (IStr s) = sub_urls 0 s.
Proof. cbn [format_string]. destruct (contains (lit "http") s) eqn:E; [reflexivity|]. symmetry. apply sub_none, E. Qed.

Lemma plain_gt s : plain_text s -> no_gt s.
Proof. apply Forall_impl. tauto. Qed.
Lemma plain_app a b : plain_text (a ++ b) -> plain_text a /\ plain_text b.
Proof. apply Forall_app. Qed.
Lemma name_a u : name_of (lit "a href=""" ++ u ++ lit """") = (lit "a", lit "href=""" ++ u ++ lit """").
Proof. reflexivity. Qed.
Lemma adds_anchor u : plain_text u -> adds (anchor u) (piece (true, u)).
Proof.
  intros P. pose proof (adds_elem "a" (tl (lit "a href=""" ++ u ++ lit """")) (lit "a") (lit "href=""" ++ u ++ lit """") u (chars u)) as H.
  assert (E : anchor u = "<"%char :: "a"%char :: tl (lit "a href=""" ++ u ++ lit """") ++ ">"%char :: u ++ "<"%char :: "/"%char :: lit "a" ++ [">"%char]).
  { unfold anchor. cbn [lit list_ascii_of_string List.app tl]. rewrite <- !app_assoc. reflexivity. }
  rewrite E. apply H; [|discriminate|apply name_a|repeat constructor; discriminate|apply adds_plain, P].
  change ("a"%char :: tl (lit "a href=""" ++ u ++ lit """")) with (lit "a href=""" ++ u ++ lit """"). unfold no_gt. rewrite !Forall_app. repeat split; [repeat constructor; discriminate|apply plain_gt, P|repeat constructor; discriminate].
Qed.
Lemma adds_sub k s : length s <= k -> plain_text s -> exists ps, cut s ps /\ adds (sub_urls 0 s) (flat_map piece ps).
Proof.
  revert s. induction k as [|k IH]; intros s LE P.
  - destruct s; [|cbn in LE; lia]. exists []. split; [constructor|exact adds_nil].
  - destruct s as [|c s]; [exists []; split; [constructor|exact adds_nil]|]. rewrite sub_cons. destruct (match_url (c :: s)) as [[u r]|] eqn:M.
    + apply match_some in M. destruct M as (E & U & EN). destruct u as [|c' u']; [destruct U as (v & X & _); discriminate X|]. cbn [List.app] in E. injection E as <- ->. cbn [length pred]. rewrite skip_ok.
      change (c :: u' ++ r) with ((c :: u') ++ r) in P. apply plain_app in P. destruct P as [P1 P2]. destruct (IH r) as (ps & C & A); [cbn in LE; rewrite app_length in LE; lia|exact P2|].
      exists ((true, c :: u') :: ps). split; [exact (cut_url (c :: u') r ps U EN C)|]. cbn [flat_map]. apply adds_app; [apply adds_anchor, P1|exact A].
    + inversion P; subst. destruct (IH s) as (ps & C & A); [cbn in LE; lia|assumption|]. exists ((false, [c]) :: ps). split; [constructor; [apply match_none, M|exact C]|].
      cbn [flat_map]. change (c :: sub_urls 0 s) with ([c] ++ sub_urls 0 s). apply adds_app; [|exact A]. cbn [piece fst snd]. apply adds_plain. constructor; auto.
Qed.
Lemma adds_item i : plain_text (item_text i) -> exists l, item_shown i l /\ adds (format_string i) l.
Proof.
  destruct i as [s|s]; intros P.
  - destruct (adds_sub (length s) s (le_n _) P) as (ps & C & A). exists (flat_map piece ps). split; [constructor; exact C|]. rewrite format_sub. exact A.
  - exists (chars s). split; [constructor|]. apply adds_plain, P.
Qed.
Lemma adds_simple n body doms : no_gt n -> n <> [] -> name_of n = (n, []) -> hd " "%char n <> "/"%char -> adds body doms ->
  adds ("<"%char :: n ++ ">"%char :: body ++ "<"%char :: "/"%char :: n ++ [">"%char]) [DElem n [] doms].
Proof. intros G NE N S B. destruct n as [|c t]; [contradiction|]. apply (adds_elem c t (c :: t) [] body doms); auto. Qed.
Lemma adds_ul body doms : adds body doms -> adds (lit "<ul>" ++ body ++ lit "</ul>") [bullets doms].
Proof. intros B. apply (adds_simple (lit "ul") body doms); [repeat constructor; discriminate|discriminate|reflexivity|discriminate|exact B]. Qed.
Lemma adds_li body doms : adds body doms -> adds (lit "<li>" ++ body ++ lit "</li>") [bullet doms].
Proof. intros B. apply (adds_simple (lit "li") body doms); [repeat constructor; discriminate|discriminate|reflexivity|discriminate|exact B]. Qed.
Lemma adds_strong body doms : adds body doms -> adds (lit "<strong>" ++ body ++ lit "</strong>") [DElem (lit "strong") [] doms].
Proof. intros B. apply (adds_simple (lit "strong") body doms); [repeat constructor; discriminate|discriminate|reflexivity|discriminate|exact B]. Qed.
Lemma adds_value v : plain v -> exists l, shown v l /\ adds (value_html v) l.
Proof.
  induction v as [i|l|d IH] using value_ind'; intros P; inversion P as [? H|? H|? H]; subst.
  - destruct (adds_item i H) as (l & A & B). exists l. split; [constructor; exact A|exact B].
  - assert (X : exists ds, Forall2 item_shown l ds /\ adds (flat_map (fun i => lit "<li>" ++ format_string i ++ lit "</li>") l) (map bullet ds)).
    { clear P. induction H as [|i l Hi Hl (ds & F & A)]; [exists []; split; [constructor|exact adds_nil]|]. destruct (adds_item i Hi) as (x & S & B). exists (x :: ds). split; [constructor; auto|]. cbn [flat_map map]. apply (adds_app _ _ [bullet x]); [apply adds_li, B|exact A]. }
    destruct X as (ds & F & A). exists [bullets (map bullet ds)]. split; [constructor; exact F|]. cbn [value_html]. apply adds_ul, A.
  - assert (X : exists ds, Forall2 (fun kv x => shown (snd kv) x) d ds /\
      adds (flat_map (fun kv => lit "<li><strong>" ++ fst kv ++ lit "</strong>: " ++ value_html (snd kv) ++ lit "</li>") d) (map (fun q => entry (fst (fst q)) (snd q)) (List.combine d ds))).
    { clear P. induction d as [|[k v] d IHd]; [exists []; split; [constructor|exact adds_nil]|]. inversion IH; subst. inversion H as [|? ? [PK PV] H']; subst. destruct (IHd H3 H') as (ds & F & A). cbn [fst snd] in *. destruct (H2 PV) as (x & S & B). exists (x :: ds). split; [constructor; auto|]. cbn [flat_map map List.combine fst snd]. apply (adds_app _ _ [entry k x]); [|exact A].
      replace (lit "<li><strong>" ++ k ++ lit "</strong>: " ++ value_html v ++ lit "</li>") with (lit "<li>" ++ ((lit "<strong>" ++ k ++ lit "</strong>") ++ (lit ": " ++ value_html v)) ++ lit "</li>").
      2:{ rewrite <- !app_assoc. reflexivity. }
      apply adds_li. apply (adds_app _ _ [DElem (lit "strong") [] (chars k)]); [apply adds_strong, adds_plain, PK|]. apply adds_app; [apply (adds_plain (lit ": ")); repeat constructor; discriminate|exact B]. }
    destruct X as (ds & F & A). exists [bullets (map (fun q => entry (fst (fst q)) (snd q)) (List.combine d ds))]. split; [constructor; exact F|]. cbn [value_html]. apply adds_ul, A.
Qed.
Lemma page_thm d : plain (VDict d) -> exists l, shown (VDict d) l /\ browser (dict_to_html d) = Some l.
Proof. intros P. destruct (adds_value _ P) as (l & S & A). exists l. split; [exact S|apply adds_browser, A]. Qed.
