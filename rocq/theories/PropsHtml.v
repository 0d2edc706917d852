(** C107: the display of metadata. *)
From Coq Require Import Ascii String Lia.
From Verif Require Import Base HtmlModel HtmlSpec HtmlProofs HtmlProofs2.
Import List.
Open Scope list_scope.

(** Metadata without characters that have a meaning in HTML are displayed completely and in order: each
    dictionary and each list is a list of bullets, at any depth, and URLs are links; there is no other way
    to display them. *)
Theorem C107_display_partial : forall d, plain (VDict d) -> forall l, shown (VDict d) l <-> browser (dict_to_html d) = Some l.
Proof. exact page_exact. Qed.
Print Assumptions C107_display_partial.
Theorem C107_exists : forall d, plain (VDict d) -> exists l, shown (VDict d) l /\ browser (dict_to_html d) = Some l.
Proof. exact page_thm. Qed.
Print Assumptions C107_exists.

(** The visible text of a string is the string itself. *)
Theorem C107_string : forall s, plain_text s -> exists l, browser (format_string (IStr s)) = Some l /\ flat_map visible l = s /\ item_shown (IStr s) l.
Proof. exact string_thm. Qed.
Print Assumptions C107_string.

(** Every link leads to the URL that it shows. *)
Theorem C107_links : forall d l a t, plain (VDict d) -> browser (dict_to_html d) = Some l -> In (a, t) (flat_map links l) ->
  url t /\ a = lit "href=""" ++ t ++ lit """".
Proof. exact links_thm. Qed.
Print Assumptions C107_links.

(** What is false of the code. *)
(** Nothing is escaped: the page has whatever elements the metadata contain, scripts as well. *)
Theorem C107_script_refuted : forall s, plain_text s -> browser (dict_to_html [(lit "<script>" ++ s ++ lit "</script>", VItem (IOther []))]) =
  Some [bullets [bullet (DElem (lit "strong") [] [DElem (lit "script") [] (chars s)] :: chars (lit ": "))]].
Proof. exact script_thm. Qed.
Print Assumptions C107_script_refuted.
(** A single < in a value destroys the structure of the page. *)
Theorem C107_less_refuted : forall k s c r, plain_text k -> plain_text s -> plain_text (c :: r) -> c <> "/"%char ->
  browser (dict_to_html [(k, VItem (IOther (s ++ "<"%char :: c :: r)))]) = None.
Proof. exact less_thm. Qed.
Print Assumptions C107_less_refuted.
(** A comma after a URL becomes part of the link. *)
Theorem C107_comma_refuted : forall u, url u -> plain_text u -> exists l, browser (format_string (IStr (u ++ lit ","))) = Some l /\
  flat_map links l = [(lit "href=""" ++ (u ++ lit ",") ++ lit """", u ++ lit ",")].
Proof. exact comma_thm. Qed.
Print Assumptions C107_comma_refuted.
(** An empty list and an empty dictionary look alike. *)
Theorem C107_alike_refuted : exists v w, plain v /\ plain w /\ v <> w /\ forall k d, dict_to_html ((k, v) :: d) = dict_to_html ((k, w) :: d).
Proof. exists (VList []), (VDict []). repeat split; try constructor; [constructor|constructor|discriminate]. Qed.
Print Assumptions C107_alike_refuted.

Definition ex_metadata : list (text * value) :=
  [(lit "name", VItem (IStr (lit "REDD")));
   (lit "urls", VList [IStr (lit "see http://a.b/c) or http"); IOther (lit "5")]);
   (lit "site", VDict [(lit "size", VItem (IOther (lit "100"))); (lit "more", VDict [])])].
Example C107_example_page : plain (VDict ex_metadata) /\
  dict_to_html ex_metadata = lit "<ul><li><strong>name</strong>: REDD</li><li><strong>urls</strong>: <ul><li>see <a href=""http://a.b/c"">http://a.b/c</a>) or http</li><li>5</li></ul></li><li><strong>site</strong>: <ul><li><strong>size</strong>: 100</li><li><strong>more</strong>: <ul></ul></li></ul></li></ul>" /\
  exists l, browser (dict_to_html ex_metadata) = Some l /\ flat_map links l = [(lit "href=""http://a.b/c""", lit "http://a.b/c")].
Proof.
  split; [|split; [reflexivity|]].
  - repeat (constructor; cbn [fst snd item_text]); discriminate.
  - eexists. split; [reflexivity|]. reflexivity.
Qed.
Example C107_example_markup : url (lit "https") /\ plain_text (lit "alert(1)") /\ plain_text (lit "b") /\
  (exists l, browser (dict_to_html [(lit "k", VItem (IStr (lit "<b>x</b>")))]) = Some l /\ flat_map visible l = lit "k: x") /\
  browser (dict_to_html [(lit "k", VItem (IOther (lit "a<b")))]) = None.
Proof.
  split; [|split; [|split; [|split; [|reflexivity]]]].
  - exists (lit "s"). repeat split; [discriminate|]. constructor; [|constructor]. split; [cbn; lia|discriminate].
  - repeat constructor; discriminate.
  - repeat constructor; discriminate.
  - eexists. split; reflexivity.
Qed.
