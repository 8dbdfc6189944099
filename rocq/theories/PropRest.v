(** PropRest.v -- what is true of C76-C79 and C108, whose full statements
    PropPages.v and PropForm.v refute. *)
From Verif Require Import Base Msg Reader ReaderP Num Lexer Obj ReadObj Env Getters Crypt GetObj Load Tree Output Parse SpecRead SpecLook SpecTree
  Md5 SpecFetch SpecOut TreeEx OutEx SpecSource SourceEx SpecLex SpecObj SpecText SpecPage SpecPages PagesEx SpecForm RestP RestEx.
From Coq Require Import Strings.String.

(** ** C76: pages inherit resources.
    Full statement: the theorem without its last hypothesis.  Missing: pages
    that inherit a font with a character map or codes of several bytes. *)
Theorem C76_own_partial : forall E OD fuel S pw ops file p, order_ok OD -> s_input S = Some file ->
  parse E OD fuel S pw = (ops, Ok PNone) -> load fuel E (o_objects OD) file pw (new_parser file) = Ok (None, p) -> offsets_ok (pxref p) ->
  forall h pages page res fs s ls, of_document E file p h -> pages_of E file p h pages -> In page pages -> resources E file p page res -> fonts_in E file p res fs ->
    contents_of E file p page [s] -> stream_lines fs s ls ->
    typed E file p is_dict (entry page (lit "Resources")) res \/ (forall n f, fs n = Some f -> snd f = 1 /\ forall c, fst f c = None) ->
    written_out (lines ls) ops.
Proof. exact run_own. Qed.
Print Assumptions C76_own_partial.
(** C73_example shows the hypotheses about the run. *)
Example C76_example : In page3 [root2; page3; page6] /\ resources E1 book book_p page3 res1 /\ typed E1 book book_p is_dict (entry page3 (lit "Resources")) res1 /\
  fonts_in E1 book book_p res1 fsA /\ contents_of E1 book book_p page3 [lit "BT/F1 1 Tf<01>Tj ET"] /\ stream_lines fsA (lit "BT/F1 1 Tf<01>Tj ET") [lit "A"].
Proof. exact C76_ex. Qed.

(** ** C77: contents may be an array of streams.
    Full statement: the theorem with [typed E file p is_array (entry page
    (lit "Contents")) a].  Missing: references to arrays. *)
Theorem C77_direct_partial : forall E OD fuel S pw ops file p, order_ok OD -> s_input S = Some file ->
  parse E OD fuel S pw = (ops, Ok PNone) -> load fuel E (o_objects OD) file pw (new_parser file) = Ok (None, p) -> offsets_ok (pxref p) ->
  forall h pages page a fs ss lss, of_document E file p h -> pages_of E file p h pages -> In page pages -> fonts_of E file p page fs ->
    entry page (lit "Contents") = Some (OArr a) -> streams_in E file p a ss -> Forall2 (stream_lines fs) ss lss ->
    written_out (lines (List.concat lss)) ops.
Proof. exact run_array. Qed.
Print Assumptions C77_direct_partial.
(** C73_example shows the hypotheses about the run. *)
Example C77_example : In page6 [root2; page3; page6] /\ fonts_of E1 book book_p page6 fs0 /\ entry page6 (lit "Contents") = Some (OArr [ref 7; ref 8]) /\
  streams_in E1 book book_p [ref 7; ref 8] [lit "BT/F1 1 Tf<01>Tj ET"; lit "BT(x)Tj ET"] /\
  Forall2 (stream_lines fs0) [lit "BT/F1 1 Tf<01>Tj ET"; lit "BT(x)Tj ET"] [[[x01]]; [lit "x"]].
Proof. exact C77_ex. Qed.

(** ** C78: embedded files are dumped also from under UF.
    Full statement: the data is dumped without the hypotheses about F.
    Missing: specifications where F is absent or has other data. *)
Theorem C78_same_partial : forall E OD fuel S pw ops file p, order_ok OD -> s_input S = Some file ->
  parse E OD fuel S pw = (ops, Ok PNone) -> load fuel E (o_objects OD) file pw (new_parser file) = Ok (None, p) -> offsets_ok (pxref p) ->
  forall h fs ef name data, of_document E file p h -> attached E file p h fs -> ~ is_url E file p fs -> typed E file p is_dict (entry fs (lit "EF")) ef ->
    streamed E file p (entry ef (lit "UF")) data -> streamed E file p (entry ef (lit "F")) data -> typed_or E file p is_string (entry fs (lit "F")) zeros name ->
    exists x, hexed (e_md5 E data) x /\ In (OpEv (EWrite FFiles (x ++ lit ":" ++ name ++ [x0a]))) ops /\ In (OpEv (EDump x data)) ops.
Proof. exact run_unicode. Qed.
Print Assumptions C78_same_partial.
Example C78_example : order_ok OD1 /\ s_input S9 = Some both /\ parse E1 OD1 20 S9 [] = (both_ops, Ok PNone) /\
  load 20 E1 (o_objects OD1) both [] (new_parser both) = Ok (None, both_p) /\ offsets_ok (pxref both_p) /\
  of_document E1 both both_p [(lit "EmbeddedFiles", ODict btree)] /\ attached E1 both both_p [(lit "EmbeddedFiles", ODict btree)] bfs /\ ~ is_url E1 both both_p bfs /\
  typed E1 both both_p is_dict (entry bfs (lit "EF")) bef /\ streamed E1 both both_p (entry bef (lit "UF")) (lit "abc") /\ streamed E1 both both_p (entry bef (lit "F")) (lit "abc") /\
  typed_or E1 both both_p is_string (entry bfs (lit "F")) zeros (lit "a.txt").
Proof. exact C78_ex. Qed.

(** ** C79: forms are dumped also where XFA is a reference to an array.
    Full statement: the theorem with [typed E file p is_array (entry h
    (lit "XFA")) a].  Missing: references to arrays. *)
Theorem C79_direct_partial : forall E OD fuel S pw ops file p, order_ok OD -> s_input S = Some file ->
  parse E OD fuel S pw = (ops, Ok PNone) -> load fuel E (o_objects OD) file pw (new_parser file) = Ok (None, p) -> offsets_ok (pxref p) ->
  forall h a data, of_document E file p h -> entry h (lit "XFA") = Some (OArr a) -> joined E file p a data ->
    exists x, hexed (e_md5 E data) x /\ In (OpEv (EWrite FFiles (x ++ lit ":form.xml" ++ [x0a]))) ops /\ In (OpEv (EDump x data)) ops.
Proof. exact run_form_array. Qed.
Print Assumptions C79_direct_partial.
(** C66_example shows the hypotheses about the run. *)
Example C79_example : of_document E1 att att_p form6 /\ entry form6 (lit "XFA") = Some (OArr [OStr (lit "x"); ref 5; OStr (lit "y"); ref 10]) /\
  joined E1 att att_p [OStr (lit "x"); ref 5; OStr (lit "y"); ref 10] (lit "abcxyz").
Proof. exact C79_ex. Qed.

(** ** C108: mapped characters are written in the encoding of the others.
    Full statement: the theorem without its last hypothesis.  Missing: fonts
    that map a code. *)
Theorem C108_unmapped_partial : forall E OD fuel S pw ops file p, order_ok OD -> s_input S = Some file ->
  parse E OD fuel S pw = (ops, Ok PNone) -> load fuel E (o_objects OD) file pw (new_parser file) = Ok (None, p) -> offsets_ok (pxref p) ->
  forall h pages page fs fs' s ls, of_document E file p h -> pages_of E file p h pages -> In page pages -> fonts_of E file p page fs -> contents_of E file p page [s] ->
    (forall n, readable_font (fs n) (fs' n)) -> stream_lines fs' s ls -> (forall n f c, fs n = Some f -> fst f c = None) ->
    written_out (lines ls) ops.
Proof. exact run_unmapped. Qed.
Print Assumptions C108_unmapped_partial.
(** C78_example shows the hypotheses about the run. *)
Example C108_example : of_document E1 both both_p cat3 /\ pages_of E1 both both_p cat3 [root4; page5] /\
  In page5 [root4; page5] /\ fonts_of E1 both both_p page5 fsE /\ contents_of E1 both both_p page5 [lit "BT/F1 1 Tf<01>Tj ET"] /\
  (forall n, readable_font (fsE n) (fsE n)) /\ stream_lines fsE (lit "BT/F1 1 Tf<01>Tj ET") [[x01]] /\ (forall n f c, fsE n = Some f -> fst f c = None).
Proof. exact C108_ex. Qed.
