(** More proofs about the display of metadata (C107). *)
From Coq Require Import Ascii String Lia Arith.
From Verif Require Import Base HtmlModel HtmlSpec HtmlProofs.
Import List.
Open Scope list_scope.
Open Scope nat_scope.

(** There is one way to display a value. *)
Lemma in_split (v v' r r' : text) : v ++ r = v' ++ r' -> Forall in_url v -> Forall in_url v' -> ended r -> ended r' -> v = v' /\ r = r'.
Proof.
  revert v'. induction v as [|c v IH]; intros [|c' v'] E F F' N N'; cbn [List.app] in E.
  - auto.
  - subst r. cbn [ended] in N. inversion F'; contradiction.
  - subst r'. cbn [ended] in N'. inversion F; contradiction.
  - injection E as <- E. inversion F; inversion F'; subst. destruct (IH v' E) as [-> ->]; auto.
Qed.
Lemma url_split u u' r r' : u ++ r = u' ++ r' -> url u -> url u' -> ended r -> ended r' -> u = u' /\ r = r'.
Proof.
  intros E (v & -> & _ & F) (v' & -> & _ & F') N N'. rewrite <- !app_assoc in E. apply app_inv_head in E. destruct (in_split v v' r r' E F F' N N') as [-> ->]. auto.
Qed.
Lemma cut_unique s ps : cut s ps -> forall ps', cut s ps' -> ps = ps'.
Proof.
  induction 1 as [|u rest ps U EN C IH|c rest ps NU C IH]; intros ps' C'.
  - inversion C' as [|u r p U|]; subst; [reflexivity|]. destruct U as (v & -> & _). discriminate.
  - inversion C' as [E|u' r' p U' EN' C'' E|c r' p NU' C'' E]; subst.
    + destruct U as (v & -> & _). discriminate.
    + destruct (url_split u' u r' rest E U' U EN' EN) as [-> ->]. f_equal. apply IH, C''.
    + exfalso. apply NU'. exists u, rest. auto.
  - inversion C' as [|u' r' p U' EN' C'' E|c' r' p NU' C'' E]; subst.
    + exfalso. apply NU. exists u', r'. auto.
    + f_equal. apply IH, C''.
Qed.
Lemma item_unique i l l' : item_shown i l -> item_shown i l' -> l = l'.
Proof. intros A B. inversion A; subst; inversion B; subst; [f_equal; eapply cut_unique; eauto|reflexivity]. Qed.
Lemma items_unique l : forall a b, Forall2 item_shown l a -> Forall2 item_shown l b -> a = b.
Proof.
  induction l as [|i l IH]; intros a b A B; inversion A; inversion B; subst; [reflexivity|]. f_equal; [eapply item_unique; eauto|apply IH; assumption].
Qed.
Lemma shown_unique v : forall l l', shown v l -> shown v l' -> l = l'.
Proof.
  induction v as [i|l|d IH] using value_ind'; intros a b A B.
  - inversion A; inversion B; subst. eapply item_unique; eauto.
  - inversion A; inversion B; subst. do 3 f_equal. eapply items_unique; eauto.
  - inversion A as [| |? da FA]; inversion B as [| |? db FB]; subst. do 4 f_equal. clear A B. revert da db FA FB. induction d as [|kv d IHd]; intros da db FA FB; inversion FA; inversion FB; subst; [reflexivity|]. inversion IH; subst. f_equal; eauto.
Qed.
Lemma page_exact d : plain (VDict d) -> forall l, shown (VDict d) l <-> browser (dict_to_html d) = Some l.
Proof.
  intros P l. destruct (page_thm d P) as (l' & S & B). split.
  - intros S'. rewrite (shown_unique _ _ _ S' S). exact B.
  - intros B'. rewrite B in B'. injection B' as <-. exact S.
Qed.

(** The visible text of a string is the string; its links lead where they say. *)
Lemma visible_chars s : flat_map visible (chars s) = s.
Proof. induction s as [|c s IH]; [reflexivity|]. cbn [chars map flat_map visible List.app]. f_equal. exact IH. Qed.
Lemma visible_cut s ps : cut s ps -> flat_map visible (flat_map piece ps) = s.
Proof.
  induction 1 as [|u rest ps U EN C IH|c rest ps NU C IH]; [reflexivity| |]; cbn [flat_map]; rewrite flat_map_app, IH.
  - cbn [piece fst snd flat_map visible]. rewrite visible_chars, app_nil_r. reflexivity.
  - reflexivity.
Qed.
Lemma string_thm s : plain_text s -> exists l, browser (format_string (IStr s)) = Some l /\ flat_map visible l = s /\ item_shown (IStr s) l.
Proof.
  intros P. destruct (adds_item (IStr s) P) as (l & S & A). exists l. split; [apply adds_browser, A|]. split; [|exact S]. inversion S; subst. eapply visible_cut; eauto.
Qed.
Definition good_links (l : list dom) : Prop := forall a t, In (a, t) (flat_map links l) -> url t /\ a = lit "href=""" ++ t ++ lit """".
Lemma links_chars s : flat_map links (chars s) = [].
Proof. induction s as [|c s IH]; [reflexivity|]. exact IH. Qed.
Lemma good_app a b : good_links a -> good_links b -> good_links (a ++ b).
Proof. intros A B x t I. rewrite flat_map_app in I. apply in_app_or in I. destruct I; auto. Qed.
Lemma good_chars s : good_links (chars s).
Proof. intros a t I. rewrite links_chars in I. destruct I. Qed.
Lemma good_cut s ps : cut s ps -> good_links (flat_map piece ps).
Proof.
  induction 1 as [|u rest ps U EN C IH|c rest ps NU C IH]; [intros a t []| |]; cbn [flat_map]; apply good_app; auto.
  - intros a t I. cbn [piece fst snd flat_map links] in I. rewrite links_chars, visible_chars in I. destruct I as [E|[]]. injection E as <- <-. auto.
  - apply good_chars.
Qed.
Lemma good_item i l : item_shown i l -> good_links l.
Proof. intros S. inversion S; subst; [eapply good_cut; eauto|apply good_chars]. Qed.
Lemma good_elem n l : n <> lit "a" -> good_links l -> good_links [DElem n [] l].
Proof. intros N G a t I. cbn [flat_map links] in I. rewrite app_nil_r in I. destruct (list_eq_dec ascii_dec n (lit "a")); [contradiction|]. apply G, I. Qed.
Lemma good_cons x l : good_links [x] -> good_links l -> good_links (x :: l).
Proof. apply (good_app [x]). Qed.
Lemma good_shown v : forall l, shown v l -> good_links l.
Proof.
  induction v as [i|l|d IH] using value_ind'; intros a S; inversion S as [? ? H|? ds F|? ds F]; subst.
  - eapply good_item; eauto.
  - apply good_elem; [discriminate|]. clear S. revert ds F. induction l as [|i l IHl]; intros ds F; inversion F; subst; [intros a t []|]. cbn [map]. apply good_cons; [apply good_elem; [discriminate|eapply good_item; eauto]|auto].
  - apply good_elem; [discriminate|]. clear S. revert ds F. induction d as [|[k v] d IHd]; intros ds F; inversion F; subst; [intros a t []|]. inversion IH; subst. cbn [List.combine map fst snd] in *. apply good_cons; [|auto].
    apply good_elem; [discriminate|]. apply good_cons; [apply good_elem; [discriminate|apply good_chars]|]. apply good_app; [apply good_chars|auto].
Qed.
Lemma links_thm d l a t : plain (VDict d) -> browser (dict_to_html d) = Some l -> In (a, t) (flat_map links l) -> url t /\ a = lit "href=""" ++ t ++ lit """".
Proof. intros P B. apply (good_shown (VDict d)). apply (page_exact d P), B. Qed.

(** Markup. *)
Lemma script_thm s : plain_text s -> browser (dict_to_html [(lit "<script>" ++ s ++ lit "</script>", VItem (IOther []))]) =
  Some [bullets [bullet (DElem (lit "strong") [] [DElem (lit "script") [] (chars s)] :: chars (lit ": "))]].
Proof.
  intros P. apply adds_browser. change (dict_to_html [(lit "<script>" ++ s ++ lit "</script>", VItem (IOther []))]) with
    (lit "<ul>" ++ ((lit "<li><strong>" ++ (lit "<script>" ++ s ++ lit "</script>") ++ lit "</strong>: " ++ [] ++ lit "</li>") ++ []) ++ lit "</ul>").
  apply adds_ul. rewrite app_nil_r.
  replace (lit "<li><strong>" ++ (lit "<script>" ++ s ++ lit "</script>") ++ lit "</strong>: " ++ [] ++ lit "</li>") with (lit "<li>" ++ ((lit "<strong>" ++ (lit "<script>" ++ s ++ lit "</script>") ++ lit "</strong>") ++ lit ": ") ++ lit "</li>") by (rewrite <- !app_assoc; reflexivity).
  apply adds_li. apply (adds_app _ _ [_]); [|apply (adds_plain (lit ": ")); repeat constructor; discriminate]. apply adds_strong.
  apply (adds_simple (lit "script") s (chars s)); [repeat constructor; discriminate|discriminate|reflexivity|discriminate|apply adds_plain, P].
Qed.
Lemma less_thm k s c r : plain_text k -> plain_text s -> plain_text (c :: r) -> c <> "/"%char -> browser (dict_to_html [(k, VItem (IOther (s ++ "<"%char :: c :: r)))]) = None.
Proof.
  intros PK PS PR NS. unfold browser, dict_to_html. cbn [value_html flat_map fst snd format_string]. rewrite app_nil_r.
  assert (A : adds (lit "<strong>" ++ k ++ lit "</strong>") [DElem (lit "strong") [] (chars k)]) by (apply adds_strong, adds_plain, PK).
  replace (lit "<ul>" ++ (lit "<li><strong>" ++ k ++ lit "</strong>: " ++ (s ++ "<"%char :: c :: r) ++ lit "</li>") ++ lit "</ul>")
    with (lit "<ul><li>" ++ (lit "<strong>" ++ k ++ lit "</strong>") ++ (lit ": " ++ s ++ "<"%char :: c :: r ++ lit "</li></ul>")).
  2:{ rewrite <- !app_assoc. cbn [lit list_ascii_of_string List.app]. repeat (rewrite <- app_assoc; cbn [List.app]). reflexivity. }
  change (tokens None (lit "<ul><li>" ++ (lit "<strong>" ++ k ++ lit "</strong>") ++ (lit ": " ++ s ++ "<"%char :: c :: r ++ lit "</li></ul>")))
    with (TTag (lit "ul") :: TTag (lit "li") :: tokens None ((lit "<strong>" ++ k ++ lit "</strong>") ++ (lit ": " ++ s ++ "<"%char :: c :: r ++ lit "</li></ul>"))).
  change (build (TTag (lit "ul") :: TTag (lit "li") :: ?x) [] []) with (build x [(lit "li", [], []); (lit "ul", [], [])] []).
  rewrite A. rewrite (adds_plain (lit ": ")) by (repeat constructor; discriminate). rewrite (adds_plain s PS).
  change (tokens None ("<"%char :: c :: r ++ lit "</li></ul>")) with (tokens (Some []) ((c :: r) ++ lit "</li></ul>")).
  replace ((c :: r) ++ lit "</li></ul>") with (((c :: r) ++ lit "</li") ++ ">"%char :: lit "</ul>") by (rewrite <- app_assoc; reflexivity).
  rewrite tokens_tag.
  2:{ apply Forall_app. split; [apply plain_gt, PR|repeat constructor; discriminate]. }
  cbn [List.app build]. destruct (Ascii.eqb_spec c "/"); [contradiction|]. change (tokens None (lit "</ul>")) with [TTag (lit "/ul")]. cbn [lit list_ascii_of_string build]. change (Ascii.eqb "/" "/") with true. cbv iota.
  destruct (list_eq_dec ascii_dec _ _); reflexivity.
Qed.
Lemma comma_thm u : url u -> plain_text u -> exists l, browser (format_string (IStr (u ++ lit ","))) = Some l /\ flat_map links l = [(lit "href=""" ++ (u ++ lit ",") ++ lit """", u ++ lit ",")].
Proof.
  intros U P. destruct (string_thm (u ++ lit ",")) as (l & B & _ & S); [apply Forall_app; split; [exact P|repeat constructor; discriminate]|]. exists l. split; [exact B|].
  assert (C : cut (u ++ lit ",") [(true, u ++ lit ",")]).
  { pose proof (cut_url (u ++ lit ",") [] []) as C. rewrite app_nil_r in C. apply C; [|exact I|constructor]. destruct U as (v & -> & NE & F). exists (v ++ lit ","). rewrite app_assoc. split; [reflexivity|]. split; [destruct v; discriminate|]. apply Forall_app. split; [exact F|]. repeat constructor; [cbn; lia|discriminate]. }
  assert (S' : item_shown (IStr (u ++ lit ",")) (flat_map piece [(true, u ++ lit ",")])) by (constructor; exact C). rewrite (item_unique _ _ _ S S'). unfold piece. cbn [flat_map fst snd List.app links]. rewrite links_chars, visible_chars. reflexivity.
Qed.
