(** PropContents.v -- C84: contents.txt.  Only statements; the proofs are in
    ContentsP.v. *)
From Verif Require Import Base Msg Reader ReaderP Num Lexer Obj ReadObj Env Getters Crypt GetObj Load Tree Output Parse SpecRead SpecLook SpecTree
  Md5 SpecFetch SpecOut OutEx SpecSource SpecLex SpecObj SpecText SpecPage SpecPages SpecContents ContentsP PagesEx ContentsEx.
From Coq Require Import Strings.String.

(** ** C84: contents.txt holds only text of the pages.
    Each piece of text is from a content stream of a page, and is a line shown
    there if that stream and the fonts of the page are well-formed. *)
Theorem C84_text_sound : forall E OD fuel S pw ops file p, order_ok OD -> s_input S = Some file ->
  parse E OD fuel S pw = (ops, Ok PNone) -> load fuel E (o_objects OD) file pw (new_parser file) = Ok (None, p) -> offsets_ok (pxref p) ->
  forall t, In (OpEv (EWrite FText t)) ops -> t = [x0a] \/ exists h, of_document E file p h /\ text_of E file p h t.
Proof. exact text_source. Qed.
Print Assumptions C84_text_sound.
(** In a document with well-formed pages all text is of lines shown on pages. *)
Theorem C84_lines_sound : forall E OD fuel S pw ops file p, order_ok OD -> s_input S = Some file ->
  parse E OD fuel S pw = (ops, Ok PNone) -> load fuel E (o_objects OD) file pw (new_parser file) = Ok (None, p) -> offsets_ok (pxref p) ->
  (forall h page s, of_document E file p h -> page_under E file p h page -> content_stream E file p page s -> exists fs ls, fonts_of E file p page fs /\ stream_lines fs s ls) ->
  forall t, In (OpEv (EWrite FText t)) ops -> t = [x0a] \/
    exists h page s fs ls, of_document E file p h /\ page_under E file p h page /\ content_stream E file p page s /\ fonts_of E file p page fs /\ stream_lines fs s ls /\ In t ls.
Proof. exact text_lines. Qed.
Print Assumptions C84_lines_sound.
Example C84_example : order_ok OD1 /\ s_input S8 = Some leaf /\ parse E1 OD1 30 S8 [] = (leaf_ops, Ok PNone) /\
  load 30 E1 (o_objects OD1) leaf [] (new_parser leaf) = Ok (None, leaf_p) /\ offsets_ok (pxref leaf_p) /\
  (forall h page s, of_document E1 leaf leaf_p h -> page_under E1 leaf leaf_p h page -> content_stream E1 leaf leaf_p page s ->
     exists fs ls, fonts_of E1 leaf leaf_p page fs /\ stream_lines fs s ls) /\
  In (OpEv (EWrite FText (lit "x"))) leaf_ops /\ of_document E1 leaf leaf_p cat1 /\ page_under E1 leaf leaf_p cat1 page2 /\ content_stream E1 leaf leaf_p page2 (lit "BT(x)Tj ET").
Proof. exact C84_ex. Qed.
