(** PropPages.v -- the text of the pages of a document (C73-C77), embedded
    files and forms in less usual places (C78, C79). *)
From Verif Require Import Base Msg Reader ReaderP Num Lexer Obj ReadObj Env Getters Crypt GetObj Load Tree Output Parse SpecRead SpecLook SpecTree
  Md5 SpecFetch SpecOut OutEx SpecSource SpecLex SpecObj SpecText SpecPage SpecPages PagesP PagesEx.
From Coq Require Import Strings.String.

(** ** C73: the text of every page is extracted, in the order of the pages *)
Theorem C73_pages : forall E OD fuel S pw ops file p, order_ok OD -> s_input S = Some file ->
  parse E OD fuel S pw = (ops, Ok PNone) -> load fuel E (o_objects OD) file pw (new_parser file) = Ok (None, p) -> offsets_ok (pxref p) ->
  forall h pages lss, of_document E file p h -> pages_of E file p h pages -> Forall2 (page_lines E file p) pages lss -> written_out (lines (List.concat lss)) ops.
Proof. exact run_pages. Qed.
Print Assumptions C73_pages.
(** also if other pages have no such lines *)
Theorem C73_page : forall E OD fuel S pw ops file p, order_ok OD -> s_input S = Some file ->
  parse E OD fuel S pw = (ops, Ok PNone) -> load fuel E (o_objects OD) file pw (new_parser file) = Ok (None, p) -> offsets_ok (pxref p) ->
  forall h pages page ls, of_document E file p h -> pages_of E file p h pages -> In page pages -> page_lines E file p page ls -> written_out (lines ls) ops.
Proof. exact parse_page. Qed.
Print Assumptions C73_page.
Example C73_example : order_ok OD1 /\ s_input S6 = Some book /\ parse E1 OD1 30 S6 [] = (book_ops, Ok PNone) /\
  load 30 E1 (o_objects OD1) book [] (new_parser book) = Ok (None, book_p) /\ offsets_ok (pxref book_p) /\
  of_document E1 book book_p cat1 /\ pages_of E1 book book_p cat1 [root2; page3; page6] /\
  Forall2 (page_lines E1 book book_p) [root2; page3; page6] [[]; [lit "A"]; [[x01]; lit "x"]].
Proof. exact C73_ex. Qed.

(** ** C74: a font stays selected until another one is.
    Full statement: C74_font_partial without [selecting cs].  This is false:
    every text object starts without a font. *)
Theorem C74_font_refuted : exists E OD fuel S pw ops file p h pages page fs s l cs ls, order_ok OD /\ s_input S = Some file /\ parse E OD fuel S pw = (ops, Ok PNone) /\
  load fuel E (o_objects OD) file pw (new_parser file) = Ok (None, p) /\ offsets_ok (pxref p) /\
  of_document E file p h /\ pages_of E file p h pages /\ In page pages /\ fonts_of E file p page fs /\ contents_of E file p page [s] /\
  tokens s l /\ commands l cs /\ Forall alternating cs /\ graphics fs all_strings false plain_font [] cs ls /\ ~ written_out (lines ls) ops.
Proof. exact font_refuted. Qed.
Print Assumptions C74_font_refuted.
Theorem C74_font_partial : forall E OD fuel S pw ops file p, order_ok OD -> s_input S = Some file ->
  parse E OD fuel S pw = (ops, Ok PNone) -> load fuel E (o_objects OD) file pw (new_parser file) = Ok (None, p) -> offsets_ok (pxref p) ->
  forall h pages page fs s l cs ls, of_document E file p h -> pages_of E file p h pages -> In page pages -> fonts_of E file p page fs -> contents_of E file p page [s] ->
    tokens s l -> commands l cs -> Forall alternating cs -> selecting cs -> graphics fs all_strings false plain_font [] cs ls -> written_out (lines ls) ops.
Proof. exact run_graphics. Qed.
Print Assumptions C74_font_partial.
(** C73_example shows the hypotheses about the run. *)
Example C74_example : In page3 [root2; page3; page6] /\ fonts_of E1 book book_p page3 fsA /\ contents_of E1 book book_p page3 [lit "BT/F1 1 Tf<01>Tj ET"] /\
  tokens (lit "BT/F1 1 Tf<01>Tj ET") (flatten_cmds c7) /\ commands (flatten_cmds c7) c7 /\ Forall alternating c7 /\ selecting c7 /\
  graphics fsA all_strings false plain_font [] c7 [lit "A"].
Proof. exact C74_ex. Qed.

(** ** C75: the content streams of a page are read as one.
    Full statement: C75_joint_partial without [Forall whole ss].  This is
    false: each stream is read on its own. *)
Theorem C75_joint_refuted : exists E OD fuel S pw ops file p h pages page fs ss l cs ls, order_ok OD /\ s_input S = Some file /\ parse E OD fuel S pw = (ops, Ok PNone) /\
  load fuel E (o_objects OD) file pw (new_parser file) = Ok (None, p) /\ offsets_ok (pxref p) /\
  of_document E file p h /\ pages_of E file p h pages /\ In page pages /\ fonts_of E file p page fs /\ contents_of E file p page ss /\
  tokens (joint ss) l /\ commands l cs /\ Forall alternating cs /\ text fs all_strings None cs ls /\ ~ written_out (lines ls) ops.
Proof. exact joint_refuted. Qed.
Print Assumptions C75_joint_refuted.
Theorem C75_joint_partial : forall E OD fuel S pw ops file p, order_ok OD -> s_input S = Some file ->
  parse E OD fuel S pw = (ops, Ok PNone) -> load fuel E (o_objects OD) file pw (new_parser file) = Ok (None, p) -> offsets_ok (pxref p) ->
  forall h pages page fs ss l cs ls, of_document E file p h -> pages_of E file p h pages -> In page pages -> fonts_of E file p page fs -> contents_of E file p page ss ->
    tokens (joint ss) l -> commands l cs -> Forall alternating cs -> Forall whole ss -> text fs all_strings None cs ls -> written_out (lines ls) ops.
Proof. exact run_joint. Qed.
Print Assumptions C75_joint_partial.
(** C73_example shows the hypotheses about the run. *)
Example C75_example : In page6 [root2; page3; page6] /\ fonts_of E1 book book_p page6 fs0 /\ contents_of E1 book book_p page6 [lit "BT/F1 1 Tf<01>Tj ET"; lit "BT(x)Tj ET"] /\
  Forall whole [lit "BT/F1 1 Tf<01>Tj ET"; lit "BT(x)Tj ET"] /\ exists l, tokens (joint [lit "BT/F1 1 Tf<01>Tj ET"; lit "BT(x)Tj ET"]) l /\ commands l (c7 ++ c8) /\
  Forall alternating (c7 ++ c8) /\ text fs0 all_strings None (c7 ++ c8) [[x01]; lit "x"].
Proof. exact C75_ex. Qed.

(** ** C76: pages inherit resources.
    Full statement: the text of a page is decoded with the fonts in the
    resources that the page or the nearest node above it has.  This is false;
    C73_page says it for a page's own resources. *)
Theorem C76_inherited_refuted : exists E OD fuel S pw ops file p h pages page res fs s ls, order_ok OD /\ s_input S = Some file /\ parse E OD fuel S pw = (ops, Ok PNone) /\
  load fuel E (o_objects OD) file pw (new_parser file) = Ok (None, p) /\ offsets_ok (pxref p) /\
  of_document E file p h /\ pages_of E file p h pages /\ In page pages /\ resources E file p page res /\ fonts_in E file p res fs /\ contents_of E file p page [s] /\
  stream_lines fs s ls /\ ~ written_out (lines ls) ops.
Proof. exact inherited_refuted. Qed.
Print Assumptions C76_inherited_refuted.

(** ** C77: contents may be an array of streams.
    Full statement: the text of the streams in the array under Contents is
    extracted.  This is false if the entry is a reference to the array;
    C73_page says it for arrays in the page itself. *)
Theorem C77_contents_refuted : exists E OD fuel S pw ops file p h pages page a fs s ls, order_ok OD /\ s_input S = Some file /\ parse E OD fuel S pw = (ops, Ok PNone) /\
  load fuel E (o_objects OD) file pw (new_parser file) = Ok (None, p) /\ offsets_ok (pxref p) /\
  of_document E file p h /\ pages_of E file p h pages /\ In page pages /\ fonts_of E file p page fs /\
  typed E file p is_array (entry page (lit "Contents")) a /\ streams_in E file p a [s] /\ stream_lines fs s ls /\ ~ written_out (lines ls) ops.
Proof. exact contents_refuted. Qed.
Print Assumptions C77_contents_refuted.

(** ** C78: embedded files are dumped also from under UF.
    Full statement: the stream under UF in the EF dictionary of a file
    specification is dumped.  This is false if there is none under F;
    C66_embedded_partial says it for those. *)
Theorem C78_unicode_refuted : exists E OD fuel S pw ops file p h fs ef data, order_ok OD /\ s_input S = Some file /\ parse E OD fuel S pw = (ops, Ok PNone) /\
  load fuel E (o_objects OD) file pw (new_parser file) = Ok (None, p) /\ offsets_ok (pxref p) /\ of_document E file p h /\ attached E file p h fs /\
  typed E file p is_dict (entry fs (lit "EF")) ef /\ streamed E file p (entry ef (lit "UF")) data /\ (forall x, ~ In (OpEv (EDump x data)) ops).
Proof. exact unicode_refuted. Qed.
Print Assumptions C78_unicode_refuted.

(** ** C79: forms are dumped also where XFA is a reference to an array.
    This is false; C67_forms says it for arrays in the dictionary itself. *)
Theorem C79_form_refuted : exists E OD fuel S pw ops file p h a data, order_ok OD /\ s_input S = Some file /\ parse E OD fuel S pw = (ops, Ok PNone) /\
  load fuel E (o_objects OD) file pw (new_parser file) = Ok (None, p) /\ offsets_ok (pxref p) /\ of_document E file p h /\
  typed E file p is_array (entry h (lit "XFA")) a /\ joined E file p a data /\ (forall x, ~ In (OpEv (EDump x data)) ops).
Proof. exact form_refuted. Qed.
Print Assumptions C79_form_refuted.
