(** PropForm.v -- the text of forms that a page paints (C106), text beside
    inline images (C107), text in one encoding (C108). *)
From Verif Require Import Base Msg Reader ReaderP Num Lexer Obj ReadObj Env Getters Crypt GetObj Load Tree Output Parse SpecRead SpecLook SpecTree
  Md5 SpecFetch SpecOut OutEx SpecSource SpecLex SpecObj SpecText SpecPage SpecPages PagesP PagesEx SpecForm FormP FormEx.
From Coq Require Import Strings.String.

(** ** C106: the text of a page includes that of the forms it paints.
    Full statement: C106_forms_partial with the forms' text unrestricted,
    [painted E file p (fun _ => True)].  This is false: the operator Do is
    passed over. *)
Theorem C106_forms_refuted : exists E OD fuel S pw ops file p h pages page res fs s l cs ls, order_ok OD /\ s_input S = Some file /\ parse E OD fuel S pw = (ops, Ok PNone) /\
  load fuel E (o_objects OD) file pw (new_parser file) = Ok (None, p) /\ offsets_ok (pxref p) /\
  of_document E file p h /\ pages_of E file p h pages /\ In page pages /\ dict_at E file p page (lit "Resources") res /\ fonts_in E file p res fs /\
  contents_of E file p page [s] /\ tokens s l /\ commands l cs /\ Forall alternating cs /\ painted E file p (fun _ => True) res fs None cs ls /\ ~ written_out (lines ls) ops.
Proof. exact painted_refuted. Qed.
Print Assumptions C106_forms_refuted.
(** pages whose forms show no text *)
Theorem C106_forms_partial : forall E OD fuel S pw ops file p, order_ok OD -> s_input S = Some file ->
  parse E OD fuel S pw = (ops, Ok PNone) -> load fuel E (o_objects OD) file pw (new_parser file) = Ok (None, p) -> offsets_ok (pxref p) ->
  forall h pages page res fs s l cs ls, of_document E file p h -> pages_of E file p h pages -> In page pages -> dict_at E file p page (lit "Resources") res ->
    fonts_in E file p res fs -> contents_of E file p page [s] -> tokens s l -> commands l cs -> Forall alternating cs ->
    painted E file p (fun x => x = []) res fs None cs ls -> written_out (lines ls) ops.
Proof. exact run_painted. Qed.
Print Assumptions C106_forms_partial.
Example C106_example : order_ok OD1 /\ s_input S8 = Some fpaint /\ parse E1 OD1 30 S8 [] = (fpaint_ops, Ok PNone) /\
  load 30 E1 (o_objects OD1) fpaint [] (new_parser fpaint) = Ok (None, fpaint_p) /\ offsets_ok (pxref fpaint_p) /\
  of_document E1 fpaint fpaint_p cat1 /\ pages_of E1 fpaint fpaint_p cat1 fpages /\ In fpage8 fpages /\ dict_at E1 fpaint fpaint_p fpage8 (lit "Resources") (fres "G" 10) /\
  fonts_in E1 fpaint fpaint_p (fres "G" 10) fs0 /\ contents_of E1 fpaint fpaint_p fpage8 [lit "BT(x)Tj ET/G Do"] /\
  tokens (lit "BT(x)Tj ET/G Do") (flatten_cmds cx) /\ commands (flatten_cmds cx) cx /\ Forall alternating cx /\
  painted E1 fpaint fpaint_p (fun x => x = []) (fres "G" 10) fs0 None cx [lit "x"].
Proof. exact C106_ex. Qed.

(** ** C107: the data of inline images is not taken for operators.
    Full statement: C107_images_partial with the data unrestricted,
    [shown (fun _ => True)].  This is false: the data is read as objects. *)
Theorem C107_images_refuted : exists E OD fuel S pw ops file p h pages page fs s ls, order_ok OD /\ s_input S = Some file /\ parse E OD fuel S pw = (ops, Ok PNone) /\
  load fuel E (o_objects OD) file pw (new_parser file) = Ok (None, p) /\ offsets_ok (pxref p) /\
  of_document E file p h /\ pages_of E file p h pages /\ In page pages /\ fonts_of E file p page fs /\ contents_of E file p page [s] /\
  shown (fun _ => True) fs s ls /\ ~ written_out (lines ls) ops.
Proof. exact image_refuted. Qed.
Print Assumptions C107_images_refuted.
(** images whose data is a sequence of objects, BT and TJ not among them *)
Theorem C107_images_partial : forall E OD fuel S pw ops file p, order_ok OD -> s_input S = Some file ->
  parse E OD fuel S pw = (ops, Ok PNone) -> load fuel E (o_objects OD) file pw (new_parser file) = Ok (None, p) -> offsets_ok (pxref p) ->
  forall h pages page fs s ls, of_document E file p h -> pages_of E file p h pages -> In page pages -> fonts_of E file p page fs ->
    contents_of E file p page [s] -> shown harmless fs s ls -> written_out (lines ls) ops.
Proof. exact run_shown. Qed.
Print Assumptions C107_images_partial.
(** C106_example shows the hypotheses about the run. *)
Example C107_example : In fpage11 fpages /\ fonts_of E1 fpaint fpaint_p fpage11 fs0 /\ contents_of E1 fpaint fpaint_p fpage11 [x0a :: good_image] /\
  shown harmless fs0 (x0a :: good_image) [lit "z"].
Proof. exact C107_ex. Qed.

(** ** C108: mapped characters are written in the encoding of the others.
    Full statement: the lines of a page are those that its fonts give with the
    values of their character maps, which are UTF-16BE, written as UTF-8.  This
    is false: the bytes of the values are written as they are, which is what
    C73_page says. *)
Theorem C108_encoding_refuted : exists E OD fuel S pw ops file p h pages page fs fs' s ls, order_ok OD /\ s_input S = Some file /\ parse E OD fuel S pw = (ops, Ok PNone) /\
  load fuel E (o_objects OD) file pw (new_parser file) = Ok (None, p) /\ offsets_ok (pxref p) /\
  of_document E file p h /\ pages_of E file p h pages /\ In page pages /\ fonts_of E file p page fs /\ contents_of E file p page [s] /\
  (forall n, readable_font (fs n) (fs' n)) /\ stream_lines fs' s ls /\ ~ written_out (lines ls) ops.
Proof. exact unicode_text_refuted. Qed.
Print Assumptions C108_encoding_refuted.
