(** FormEx.v -- witnesses for PropForm.v. *)
From Verif Require Import Base BaseP Msg Reader ReaderP Num Lexer Obj ReadObj Env Getters Crypt GetObj Load Tree Output Parse SpecRead SpecLook SpecTree
  FetchP LookP SecurityP FetchEx Md5 SpecFetch SpecOut StreamEx XrefEx TreeEx RawP ExtractP OutEx SpecSource SourceP AttachP SourceEx
  SpecLex SpecObj ReadEx SpecText SpecPage TextEx PageP SpecPages PagesP PagesEx SpecForm FormP.
From Coq Require Import Strings.String.

Local Definition strm (d s : string) : bytes := lit "<<" ++ lit d ++ lit ">>stream" ++ x0a :: lit s ++ x0a :: lit "endstream".
(** A page that shows text by a form (3), one with an image (6), one with a
    form without text (8), one with an image whose data does no harm (11). *)
Definition nlb : bytes := [x0a].
Definition bad_image : bytes := lit "BI /W" ++ nlb ++ lit "ID (" ++ nlb ++ lit "EI" ++ nlb ++ lit "BT(y)Tj ET".
Definition good_image : bytes := lit "BI /W" ++ nlb ++ lit "ID q" ++ nlb ++ lit "EI" ++ nlb ++ lit "BT(z)Tj ET".
Definition fpaint : bytes :=
  lit "1 0 obj<</Pages 2 0 R>> endobj " ++
  lit "2 0 obj<</Kids[3 0 R 6 0 R 8 0 R 11 0 R]>> endobj " ++
  lit "3 0 obj<</Resources<</XObject<</F 5 0 R>>>>/Contents 4 0 R>> endobj " ++
  lit "4 0 obj" ++ strm "" "/F Do" ++ lit " endobj " ++
  lit "5 0 obj" ++ strm "/Subtype/Form" "BT(w)Tj ET" ++ lit " endobj " ++
  lit "6 0 obj<</Contents 7 0 R>> endobj " ++
  lit "7 0 obj<<>>stream" ++ nlb ++ (nlb ++ bad_image) ++ nlb ++ lit "endstream endobj " ++
  lit "8 0 obj<</Resources<</XObject<</G 10 0 R>>>>/Contents 9 0 R>> endobj " ++
  lit "9 0 obj" ++ strm "" "BT(x)Tj ET/G Do" ++ lit " endobj " ++
  lit "10 0 obj" ++ strm "/Subtype/Form" "0 w" ++ lit " endobj " ++
  lit "11 0 obj<</Contents 12 0 R>> endobj " ++
  lit "12 0 obj<<>>stream" ++ nlb ++ (nlb ++ good_image) ++ nlb ++ lit "endstream endobj ".
Definition S8 : sys := mksys (Some fpaint) (fun _ => true) StatNotExist.
Definition fpaint_p : pst := match load 30 E1 (fun l => l) fpaint [] (new_parser fpaint) with Ok (_, p) => p | _ => nothing end.
Definition fpaint_ops : list op := fst (parse E1 OD1 30 S8 []).
Lemma fpaint_load : load 30 E1 (o_objects OD1) fpaint [] (new_parser fpaint) = Ok (None, fpaint_p).
Proof. vm_compute. reflexivity. Qed.
Lemma fpaint_parse : parse E1 OD1 30 S8 [] = (fpaint_ops, Ok PNone).
Proof. vm_compute. reflexivity. Qed.
Lemma fpaint_offsets : offsets_ok (pxref fpaint_p).
Proof.
  intros n e H T. unfold xget in H. remember (pxref fpaint_p) as x eqn:Q. vm_compute in Q. subst x. cbn [mget] in H.
  repeat match type of H with (if ?c then _ else _) = _ => destruct c; [injection H as <-; cbn; lia|] end. discriminate.
Qed.
Definition fres (n : string) (k : Z) : dict := [(lit "XObject", ODict [(lit n, ref k)])].
Definition froot : dict := [(lit "Kids", OArr [ref 3; ref 6; ref 8; ref 11])].
Definition fpage3 : dict := [(lit "Resources", ODict (fres "F" 5)); (lit "Contents", ref 4)].
Definition fpage6 : dict := [(lit "Contents", ref 7)].
Definition fpage8 : dict := [(lit "Resources", ODict (fres "G" 10)); (lit "Contents", ref 9)].
Definition fpage11 : dict := [(lit "Contents", ref 12)].
Definition fpages : list dict := [froot; fpage3; fpage6; fpage8; fpage11].
Lemma fpaint_pages : pages_of E1 fpaint fpaint_p cat1 fpages.
Proof.
  exists froot, [ref 3; ref 6; ref 8; ref 11], [PT 3 fpage3 []; PT 6 fpage6 []; PT 8 fpage8 []; PT 11 fpage11 []].
  split; [indirect |]. split; [apply direct_array; reflexivity |]. split; [| reflexivity].
  eapply un_page; [intros [] | page9 | apply no_array; reflexivity | constructor |].
  eapply un_page; [intros [] | page9 | apply no_array; reflexivity | constructor |].
  eapply un_page; [intros [] | page9 | apply no_array; reflexivity | constructor |].
  eapply un_page; [intros [] | page9 | apply no_array; reflexivity | constructor |]. constructor.
Qed.
Lemma fpaint_here : of_document E1 fpaint fpaint_p cat1.
Proof. docd 1 cat1. apply hd_here. Qed.
Lemma no_fonts : forall E file p page, entry page (lit "Resources") = None -> fonts_of E file p page fs0.
Proof. intros E file p page H. exists []. split; [apply no_dict; exact H | apply fonts_none; reflexivity]. Qed.
Ltac not_written := let H := fresh in intros H; unfold fpaint_ops in H; let l := fresh in let Q := fresh in
  remember (fst (parse E1 OD1 30 S8 [])) as l eqn:Q; vm_compute in Q; subst l; repeat (destruct H as [H | H]; [try discriminate H; vm_compute in H; discriminate H |]); exact H.
Lemma fpaint_w : ~ In (OpEv (EWrite FText (lit "w"))) fpaint_ops.
Proof. not_written. Qed.
Lemma fpaint_y : ~ In (OpEv (EWrite FText (lit "y"))) fpaint_ops.
Proof. not_written. Qed.

(** ** The streams *)
Definition cDo (n : string) : bytes * list obj := (lit "Do", [OName (lit n)]).
Definition c4 := [cDo "F"].
Definition cw := [cBT; cTj (lit "w"); cET].
Definition cx := [cBT; cTj (lit "x"); cET; cDo "G"].
Definition c0 : list (bytes * list obj) := [(lit "w", [ONum (num_of_Z 0)])].
Ltac name1 := apply ot_name; vm_compute; apply nb_char; [regular | discriminate |]; apply nb_nil.
Lemma s4_items : items (lit "/F Do") (flatten_cmds c4).
Proof. apply (cons0 (lit "/F")); [name1 | | right; delim_end]. apply (cons1 (lit "Do")); [kw_obj | apply nil0 | right; apply end0]. Qed.
Lemma sw_items : items (lit "BT(w)Tj ET") (flatten_cmds cw).
Proof.
  apply (cons0 (lit "BT")); [kw_obj | | right; delim_end]. apply (cons0 (lit "(w)")); [str_obj "w"%string | | left; exact I]. apply (cons0 (lit "Tj")); [kw_obj | | right; delim_end].
  apply (cons1 (lit "ET")); [kw_obj | apply nil0 | right; apply end0].
Qed.
Lemma sx_items : items (lit "BT(x)Tj ET/G Do") (flatten_cmds cx).
Proof.
  apply (cons0 (lit "BT")); [kw_obj | | right; delim_end]. apply (cons0 (lit "(x)")); [str_obj "x"%string | | left; exact I]. apply (cons0 (lit "Tj")); [kw_obj | | right; delim_end].
  apply (cons1 (lit "ET")); [kw_obj | | right; delim_end]. apply (cons0 (lit "/G")); [name1 | | right; delim_end]. apply (cons1 (lit "Do")); [kw_obj | apply nil0 | right; apply end0].
Qed.
Lemma sz_items : items (lit "BT(z)Tj ET") (flatten_cmds c9).
Proof. apply s9_items. Qed.
Lemma sy_items : items (lit "BT(y)Tj ET") (flatten_cmds [cBT; cTj (lit "y"); cET]).
Proof.
  apply (cons0 (lit "BT")); [kw_obj | | right; delim_end]. apply (cons0 (lit "(y)")); [str_obj "y"%string | | left; exact I]. apply (cons0 (lit "Tj")); [kw_obj | | right; delim_end].
  apply (cons1 (lit "ET")); [kw_obj | apply nil0 | right; apply end0].
Qed.
Lemma s0_items : items (lit "0 w") (flatten_cmds c0).
Proof. apply (cons0 (lit "0")); [zero_obj | | right; delim_end]. apply (cons1 (lit "w")); [kw_obj | apply nil0 | right; apply end0]. Qed.
Definition fdict : dict := [(lit "Subtype", OName (lit "Form"))].
Definition fobj (n : Z) (s : string) : iobj := {| inum := n; igen := 0; ival := ODict fdict; istream := Some (lit s) |}.
Lemma formF : form_at E1 fpaint fpaint_p (fres "F" 5) (lit "F") fdict (lit "BT(w)Tj ET").
Proof. exists [(lit "F", ref 5)], 5, 0, (fobj 5 "BT(w)Tj ET"). split; [left; direct |]. split; [reflexivity |]. split; [fetch9 |]. repeat split. Qed.
Lemma formG : form_at E1 fpaint fpaint_p (fres "G" 10) (lit "G") fdict (lit "0 w").
Proof. exists [(lit "G", ref 10)], 10, 0, (fobj 10 "0 w"). split; [left; direct |]. split; [reflexivity |]. split; [fetch9 |]. repeat split. Qed.
Lemma s4_painted : painted E1 fpaint fpaint_p (fun _ => True) (fres "F" 5) fs0 None c4 [lit "w"].
Proof.
  apply (pt_form _ _ _ _ (fres "F" 5) fs0 [OName (lit "F")] [] [] fdict (lit "BT(w)Tj ET") [] fs0 (flatten_cmds cw) cw [lit "w"]).
  - exact formF.
  - apply no_dict. reflexivity.
  - apply fonts_none. reflexivity.
  - apply items_tokens, sw_items.
  - cmds.
  - apply pt_begin. apply pt_line; [apply show, plain_decoded |]. apply pt_finish, pt_end.
  - exact I.
  - apply pt_end.
Qed.
Lemma sx_painted : painted E1 fpaint fpaint_p (fun x => x = []) (fres "G" 10) fs0 None cx [lit "x"].
Proof.
  apply pt_begin. apply pt_line; [apply show, plain_decoded |]. apply pt_finish.
  apply (pt_form _ _ _ _ (fres "G" 10) fs0 [OName (lit "G")] [] [] fdict (lit "0 w") [] fs0 (flatten_cmds c0) c0 []).
  - exact formG.
  - apply no_dict. reflexivity.
  - apply fonts_none. reflexivity.
  - apply items_tokens, s0_items.
  - cmds.
  - apply pt_outside; [discriminate | intros Q; discriminate Q | apply pt_end].
  - reflexivity.
  - apply pt_end.
Qed.
Ltac fpaint_run := split; [apply OD1_ok |]; split; [reflexivity |]; split; [apply fpaint_parse |]; split; [apply fpaint_load |]; split; [apply fpaint_offsets |].
Lemma painted_refuted : exists E OD fuel S pw ops file p h pages page res fs s l cs ls, order_ok OD /\ s_input S = Some file /\ parse E OD fuel S pw = (ops, Ok PNone) /\
  load fuel E (o_objects OD) file pw (new_parser file) = Ok (None, p) /\ offsets_ok (pxref p) /\
  of_document E file p h /\ pages_of E file p h pages /\ In page pages /\ dict_at E file p page (lit "Resources") res /\ fonts_in E file p res fs /\
  contents_of E file p page [s] /\ tokens s l /\ commands l cs /\ Forall alternating cs /\ painted E file p (fun _ => True) res fs None cs ls /\ ~ written_out (lines ls) ops.
Proof.
  exists E1, OD1, 30%nat, S8, [], fpaint_ops, fpaint, fpaint_p, cat1, fpages, fpage3, (fres "F" 5), fs0, (lit "/F Do"), (flatten_cmds c4), c4, [lit "w"].
  fpaint_run. split; [apply fpaint_here |]. split; [apply fpaint_pages |]. split; [right; left; reflexivity |]. split; [left; direct |].
  split; [apply fonts_none; reflexivity |]. split; [apply ct_stream; refd 4 (lit "/F Do") |]. split; [apply items_tokens, s4_items |]. split; [cmds |]. split; [alt |].
  split; [apply s4_painted |]. eapply not_out; [left; reflexivity | apply fpaint_w].
Qed.
Lemma C106_ex : order_ok OD1 /\ s_input S8 = Some fpaint /\ parse E1 OD1 30 S8 [] = (fpaint_ops, Ok PNone) /\
  load 30 E1 (o_objects OD1) fpaint [] (new_parser fpaint) = Ok (None, fpaint_p) /\ offsets_ok (pxref fpaint_p) /\
  of_document E1 fpaint fpaint_p cat1 /\ pages_of E1 fpaint fpaint_p cat1 fpages /\ In fpage8 fpages /\ dict_at E1 fpaint fpaint_p fpage8 (lit "Resources") (fres "G" 10) /\
  fonts_in E1 fpaint fpaint_p (fres "G" 10) fs0 /\ contents_of E1 fpaint fpaint_p fpage8 [lit "BT(x)Tj ET/G Do"] /\
  tokens (lit "BT(x)Tj ET/G Do") (flatten_cmds cx) /\ commands (flatten_cmds cx) cx /\ Forall alternating cx /\
  painted E1 fpaint fpaint_p (fun x => x = []) (fres "G" 10) fs0 None cx [lit "x"].
Proof.
  fpaint_run. split; [apply fpaint_here |]. split; [apply fpaint_pages |]. split; [do 3 right; left; reflexivity |]. split; [left; direct |].
  split; [apply fonts_none; reflexivity |]. split; [apply ct_stream; refd 9 (lit "BT(x)Tj ET/G Do") |]. split; [apply items_tokens, sx_items |]. split; [cmds |]. split; [alt |]. apply sx_painted.
Qed.

(** ** Images *)
Lemma w_items : items (lit "/W") [OName (lit "W")].
Proof. apply (cons0 (lit "/W")); [name1 | apply nil0 | right; apply end0]. Qed.
Lemma q_items : items (lit "q") [OKw (lit "q")].
Proof. apply (cons0 (lit "q")); [kw_obj | apply nil0 | right; apply end0]. Qed.
Lemma short : forall c a v b, [x20; c] <> a ++ v :: lit "EI" ++ b.
Proof. intros c a v b Q. apply (f_equal (@List.length byte)) in Q. rewrite app_length in Q. cbn in Q. lia. Qed.
Lemma one_image : forall (ok : bytes -> Prop) c t, ok [c] -> items (lit "BT(" ++ [t] ++ lit ")Tj ET") (flatten_cmds [cBT; cTj [t]; cET]) ->
  shown ok fs0 (x0a :: image (lit "/W") x20 [c] ++ x0a :: lit "BT(" ++ [t] ++ lit ")Tj ET") [[t]].
Proof.
  intros ok c t K IT. change [[t]] with ([] ++ [[t]]). apply (sh_image ok fs0 [] [] [] [] (lit "/W") [OName (lit "W")] x20 [c]).
  - apply it_nil, gap_nil.
  - apply co_end. constructor.
  - left. reflexivity.
  - apply cl_nil.
  - constructor.
  - constructor.
  - apply tx_end.
  - apply w_items.
  - constructor; [discriminate | constructor].
  - cbn; tauto.
  - intros a v b _. apply short.
  - exact K.
  - eapply sh_rest; [exact IT | cmds | alt | repeat constructor; discriminate |].
    apply tx_begin. apply tx_line; [apply show, plain_decoded |]. apply tx_finish, tx_end.
Qed.
Lemma bad_shown : shown (fun _ => True) fs0 (x0a :: bad_image) [lit "y"].
Proof. apply (one_image (fun _ => True) "("%byte "y"%byte); [exact I | apply sy_items]. Qed.
Lemma good_shown : shown harmless fs0 (x0a :: good_image) [lit "z"].
Proof. apply (one_image harmless "q"%byte "z"%byte); [exists [OKw (lit "q")]; split; [apply q_items | repeat constructor; discriminate] | apply sz_items]. Qed.
Lemma image_refuted : exists E OD fuel S pw ops file p h pages page fs s ls, order_ok OD /\ s_input S = Some file /\ parse E OD fuel S pw = (ops, Ok PNone) /\
  load fuel E (o_objects OD) file pw (new_parser file) = Ok (None, p) /\ offsets_ok (pxref p) /\
  of_document E file p h /\ pages_of E file p h pages /\ In page pages /\ fonts_of E file p page fs /\ contents_of E file p page [s] /\
  shown (fun _ => True) fs s ls /\ ~ written_out (lines ls) ops.
Proof.
  exists E1, OD1, 30%nat, S8, [], fpaint_ops, fpaint, fpaint_p, cat1, fpages, fpage6, fs0, (x0a :: bad_image), [lit "y"].
  fpaint_run. split; [apply fpaint_here |]. split; [apply fpaint_pages |]. split; [do 2 right; left; reflexivity |]. split; [apply no_fonts; reflexivity |].
  split; [apply ct_stream; refd 7 (x0a :: bad_image) |]. split; [apply bad_shown |]. eapply not_out; [left; reflexivity | apply fpaint_y].
Qed.
Lemma C107_ex : In fpage11 fpages /\ fonts_of E1 fpaint fpaint_p fpage11 fs0 /\ contents_of E1 fpaint fpaint_p fpage11 [x0a :: good_image] /\
  shown harmless fs0 (x0a :: good_image) [lit "z"].
Proof.
  split; [do 4 right; left; reflexivity |]. split; [apply no_fonts; reflexivity |]. split; [apply ct_stream; refd 12 (x0a :: good_image) |]. apply good_shown.
Qed.

(** ** Unicode *)
(** a page whose font says that the code 1 is the letter A *)
Definition wide : bytes :=
  lit "1 0 obj<</Pages 2 0 R>> endobj " ++
  lit "2 0 obj<</Kids[3 0 R]>> endobj " ++
  lit "3 0 obj<</Resources<</Font<</F1 4 0 R>>>>/Contents 7 0 R>> endobj " ++
  lit "4 0 obj<</ToUnicode 5 0 R>> endobj " ++
  lit "5 0 obj" ++ strm "" "1 beginbfchar<01><0041>endbfchar" ++ lit " endobj " ++
  lit "7 0 obj" ++ strm "" "BT/F1 1 Tf<01>Tj ET" ++ lit " endobj ".
Definition S9 : sys := mksys (Some wide) (fun _ => true) StatNotExist.
Definition wide_p : pst := match load 30 E1 (fun l => l) wide [] (new_parser wide) with Ok (_, p) => p | _ => nothing end.
Definition wide_ops : list op := fst (parse E1 OD1 30 S9 []).
Lemma wide_load : load 30 E1 (o_objects OD1) wide [] (new_parser wide) = Ok (None, wide_p).
Proof. vm_compute. reflexivity. Qed.
Lemma wide_parse : parse E1 OD1 30 S9 [] = (wide_ops, Ok PNone).
Proof. vm_compute. reflexivity. Qed.
Lemma wide_offsets : offsets_ok (pxref wide_p).
Proof.
  intros n e H T. unfold xget in H. remember (pxref wide_p) as x eqn:Q. vm_compute in Q. subst x. cbn [mget] in H.
  repeat match type of H with (if ?c then _ else _) = _ => destruct c; [injection H as <-; cbn; lia|] end. discriminate.
Qed.
Definition wroot : dict := [(lit "Kids", OArr [ref 3])].
Lemma wide_pages : pages_of E1 wide wide_p cat1 [wroot; page3].
Proof.
  exists wroot, [ref 3], [PT 3 page3 []]. split; [indirect |]. split; [apply direct_array; reflexivity |]. split; [| reflexivity].
  eapply un_page; [intros [] | page9 | apply no_array; reflexivity | constructor |]. constructor.
Qed.
Lemma wide_here : of_document E1 wide wide_p cat1.
Proof. docd 1 cat1. apply hd_here. Qed.
Definition cm2 : bytes := lit "1 beginbfchar<01><0041>endbfchar".
Definition ms2 : list mapping := [MChar [x01] [x00; x41]].
Lemma cm2_text : cmap_text cm2 ms2.
Proof.
  apply (cm_chars (lit "1 beginbfchar") [] (num_of_Z 1) (lit "<01><0041>") ms2 (lit "endbfchar") []).
  - cbn [app]. apply (cons0 (lit "1")); [int_obj | | right; delim_end]. apply (cons1 (lit "beginbfchar")); [kw_obj | apply nil0 | right; apply end0].
  - constructor.
  - apply (cs_last (lit "<01>") [x01] [] (lit "<0041>") [x00; x41]); [hx "01"%string [0; 1]%nat | discriminate | gaps | hx "0041"%string [0; 0; 4; 1]%nat | discriminate].
  - reflexivity.
  - apply (cm_end (lit "endbfchar") [OKw (lit "endbfchar")]); [| repeat constructor; discriminate]. apply (cons0 (lit "endbfchar")); [kw_obj | apply nil0 | right; apply end0].
Qed.
Definition fW : (Z -> option bytes) * Z := (fun c => if c =? 1 then Some [x00; x41] else None, 1).
Definition fsW (n : bytes) : option ((Z -> option bytes) * Z) := if bseq n (lit "F1") then Some fW else None.
Lemma fW_mapped : forall x, mapped (fun m => says m x) ms2 x (fst fW x).
Proof.
  intros x. unfold fW. cbn [fst]. destruct (Z.eqb_spec x 1) as [-> | N].
  - right. exists [], (MChar [x01] [x00; x41]), []. repeat split; constructor.
  - left. split; [| reflexivity]. constructor; [| constructor]. exact N.
Qed.
Lemma wide_fonts : fonts_of E1 wide wide_p page3 fsW.
Proof.
  exists res1. split; [left; direct |]. exists [(lit "F1", ref 4)]. split; [left; direct |]. intros n. unfold fsW. destruct (bseq n (lit "F1")) eqn:Q.
  - apply ReadP.bseq_ok in Q. subst n. left. split; [left; reflexivity |]. exists fW. split; [reflexivity |].
    exists [(lit "ToUnicode", ref 5)], cm2, ms2. split; [left; indirect |]. split; [left; refd 5 cm2 |].
    split; [apply cm2_text |]. split; [repeat constructor |]. split; [repeat constructor |]. split; [reflexivity | apply fW_mapped].
  - right. split; [| reflexivity]. intros [<- | []]. discriminate.
Qed.
Lemma wide_readable : forall n, readable_font (fsW n) (fsA n).
Proof.
  intros n. unfold fsW, fsA. destruct (bseq n (lit "F1")); [| exact I]. split; [reflexivity |]. intros c. cbn [fst fW fA]. destruct (c =? 1); [| exact I].
  exists [65]. split; [| reflexivity]. apply (u16_one x00 x41 [] []); [cbn; lia | apply u16_nil].
Qed.
Lemma wide_A : ~ In (OpEv (EWrite FText (lit "A"))) wide_ops.
Proof.
  let H := fresh in intros H; unfold wide_ops in H; let l := fresh in let Q := fresh in
  remember (fst (parse E1 OD1 30 S9 [])) as l eqn:Q; vm_compute in Q; subst l; repeat (destruct H as [H | H]; [try discriminate H; vm_compute in H; discriminate H |]); exact H.
Qed.
Lemma unicode_text_refuted : exists E OD fuel S pw ops file p h pages page fs fs' s ls, order_ok OD /\ s_input S = Some file /\ parse E OD fuel S pw = (ops, Ok PNone) /\
  load fuel E (o_objects OD) file pw (new_parser file) = Ok (None, p) /\ offsets_ok (pxref p) /\
  of_document E file p h /\ pages_of E file p h pages /\ In page pages /\ fonts_of E file p page fs /\ contents_of E file p page [s] /\
  (forall n, readable_font (fs n) (fs' n)) /\ stream_lines fs' s ls /\ ~ written_out (lines ls) ops.
Proof.
  exists E1, OD1, 30%nat, S9, [], wide_ops, wide, wide_p, cat1, [wroot; page3], page3, fsW, fsA, (lit "BT/F1 1 Tf<01>Tj ET"), [lit "A"].
  split; [apply OD1_ok |]. split; [reflexivity |]. split; [apply wide_parse |]. split; [apply wide_load |]. split; [apply wide_offsets |].
  split; [apply wide_here |]. split; [apply wide_pages |]. split; [right; left; reflexivity |]. split; [apply wide_fonts |].
  split; [apply ct_stream; refd 7 (lit "BT/F1 1 Tf<01>Tj ET") |]. split; [apply wide_readable |]. split; [apply s7_lines |]. eapply not_out; [left; reflexivity | apply wide_A].
Qed.
