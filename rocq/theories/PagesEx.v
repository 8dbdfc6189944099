(** PagesEx.v -- witnesses for PropPages.v. *)
From Verif Require Import Base BaseP Msg Reader ReaderP Num Lexer Obj ReadObj Env Getters Crypt GetObj Load Tree Output Parse SpecRead SpecLook SpecTree
  FetchP LookP SecurityP FetchEx Md5 SpecFetch SpecOut StreamEx XrefEx TreeEx RawP ExtractP OutEx SpecSource SourceP AttachP SourceEx
  SpecLex SpecObj ReadEx SpecText SpecPage TextEx PageP SpecPages PagesP.
From Coq Require Import Strings.String Sorting.Permutation.

Local Definition strm (s : string) : bytes := lit "<<>>stream" ++ x0a :: lit s ++ x0a :: lit "endstream".
(** Two pages below a root, a font with one mapping, content in one stream and
    in two. *)
Definition book : bytes :=
  lit "1 0 obj<</Pages 2 0 R>> endobj " ++
  lit "2 0 obj<</Kids[3 0 R 6 0 R]>> endobj " ++
  lit "3 0 obj<</Resources<</Font<</F1 4 0 R>>>>/Contents 7 0 R>> endobj " ++
  lit "4 0 obj<</ToUnicode 5 0 R>> endobj " ++
  lit "5 0 obj" ++ strm "1 beginbfchar<01><41>endbfchar" ++ lit " endobj " ++
  lit "6 0 obj<</Contents[7 0 R 8 0 R]>> endobj " ++
  lit "7 0 obj" ++ strm "BT/F1 1 Tf<01>Tj ET" ++ lit " endobj " ++
  lit "8 0 obj" ++ strm "BT(x)Tj ET" ++ lit " endobj ".
(** Resources in the root (2, 3), Contents as a reference to an array (4), a
    text object in two streams (10), a font selected in an earlier text object
    (11), a file under UF (15), a form as a reference to an array (17). *)
Definition odd : bytes :=
  lit "1 0 obj<</Pages 2 0 R>> endobj " ++
  lit "2 0 obj<</Kids[3 0 R 4 0 R 10 0 R 11 0 R]/Resources<</Font<</F1 5 0 R>>>>>> endobj " ++
  lit "3 0 obj<</Parent 2 0 R/Contents 7 0 R>> endobj " ++
  lit "4 0 obj<</Parent 2 0 R/Contents 8 0 R>> endobj " ++
  lit "5 0 obj<</ToUnicode 6 0 R>> endobj " ++
  lit "6 0 obj" ++ strm "1 beginbfchar<01><41>endbfchar" ++ lit " endobj " ++
  lit "7 0 obj" ++ strm "BT/F1 1 Tf<01>Tj ET" ++ lit " endobj " ++
  lit "8 0 obj[9 0 R] endobj " ++
  lit "9 0 obj" ++ strm "BT(z)Tj ET" ++ lit " endobj " ++
  lit "10 0 obj<</Contents[12 0 R 13 0 R]>> endobj " ++
  lit "11 0 obj<</Resources<</Font<</F1 5 0 R>>>>/Contents 14 0 R>> endobj " ++
  lit "12 0 obj" ++ strm "BT(x)Tj" ++ lit " endobj " ++
  lit "13 0 obj" ++ strm "(y)Tj ET" ++ lit " endobj " ++
  lit "14 0 obj" ++ strm "BT/F1 1 Tf ET BT<01>Tj ET" ++ lit " endobj " ++
  lit "15 0 obj<</EmbeddedFiles<</Names[(k)<</UF(u.txt)/EF<</UF 16 0 R>>>>]>>>> endobj " ++
  lit "16 0 obj" ++ strm "abc" ++ lit " endobj " ++
  lit "17 0 obj<</XFA 18 0 R>> endobj " ++
  lit "18 0 obj[(x)19 0 R] endobj " ++
  lit "19 0 obj" ++ strm "xyz" ++ lit " endobj ".
Definition S6 : sys := mksys (Some book) (fun _ => true) StatNotExist.
Definition S7 : sys := mksys (Some odd) (fun _ => true) StatNotExist.
Definition book_p : pst := match load 30 E1 (fun l => l) book [] (new_parser book) with Ok (_, p) => p | _ => nothing end.
Definition odd_p : pst := match load 30 E1 (fun l => l) odd [] (new_parser odd) with Ok (_, p) => p | _ => nothing end.
Definition book_ops : list op := fst (parse E1 OD1 30 S6 []).
Definition odd_ops : list op := fst (parse E1 OD1 30 S7 []).
Lemma book_load : load 30 E1 (o_objects OD1) book [] (new_parser book) = Ok (None, book_p).
Proof. vm_compute. reflexivity. Qed.
Lemma book_parse : parse E1 OD1 30 S6 [] = (book_ops, Ok PNone).
Proof. vm_compute. reflexivity. Qed.
Lemma odd_load : load 30 E1 (o_objects OD1) odd [] (new_parser odd) = Ok (None, odd_p).
Proof. vm_compute. reflexivity. Qed.
Lemma odd_parse : parse E1 OD1 30 S7 [] = (odd_ops, Ok PNone).
Proof. vm_compute. reflexivity. Qed.
Lemma book_offsets : offsets_ok (pxref book_p).
Proof.
  intros n e H T. unfold xget in H. remember (pxref book_p) as x eqn:Q. vm_compute in Q. subst x. cbn [mget] in H.
  repeat match type of H with (if ?c then _ else _) = _ => destruct c; [injection H as <-; cbn; lia|] end. discriminate.
Qed.
Lemma odd_offsets : offsets_ok (pxref odd_p).
Proof.
  intros n e H T. unfold xget in H. remember (pxref odd_p) as x eqn:Q. vm_compute in Q. subst x. cbn [mget] in H.
  repeat match type of H with (if ?c then _ else _) = _ => destruct c; [injection H as <-; cbn; lia|] end. discriminate.
Qed.
Definition strobj (n : Z) (s : bytes) : iobj := {| inum := n; igen := 0; ival := ODict []; istream := Some s |}.
Ltac refd n s := exists n, 0, (strobj n s); split; [reflexivity |]; split; [fetch9 | reflexivity].

(** ** The font *)
Definition cm1 : bytes := lit "1 beginbfchar<01><41>endbfchar".
Definition ms1 : list mapping := [MChar [x01] [x41]].
Lemma cm1_text : cmap_text cm1 ms1.
Proof.
  apply (cm_chars (lit "1 beginbfchar") [] (num_of_Z 1) (lit "<01><41>") ms1 (lit "endbfchar") []).
  - cbn [app]. apply (cons0 (lit "1")); [int_obj | | right; delim_end]. apply (cons1 (lit "beginbfchar")); [kw_obj | apply nil0 | right; apply end0].
  - constructor.
  - apply (cs_last (lit "<01>") [x01] [] (lit "<41>") [x41]); [hx "01"%string [0; 1]%nat | discriminate | gaps | hx "41"%string [4; 1]%nat | discriminate].
  - reflexivity.
  - apply (cm_end (lit "endbfchar") [OKw (lit "endbfchar")]); [| repeat constructor; discriminate]. apply (cons0 (lit "endbfchar")); [kw_obj | apply nil0 | right; apply end0].
Qed.
Definition fA : (Z -> option bytes) * Z := (fun c => if c =? 1 then Some (lit "A") else None, 1).
Lemma fA_mapped : forall x, mapped (fun m => says m x) ms1 x (fst fA x).
Proof.
  intros x. unfold fA. cbn [fst]. destruct (Z.eqb_spec x 1) as [-> | N].
  - right. exists [], (MChar [x01] [x41]), []. repeat split; constructor.
  - left. split; [| reflexivity]. constructor; [| constructor]. exact N.
Qed.
Definition fsA (n : bytes) : option ((Z -> option bytes) * Z) := if bseq n (lit "F1") then Some fA else None.
Definition fs0 (n : bytes) : option ((Z -> option bytes) * Z) := None.
Lemma fonts_one : forall E file p res r info, dict_at E file p res (lit "Font") [(lit "F1", r)] -> dict_at E file p [(lit "F1", r)] (lit "F1") info ->
  stream_at E file p info (lit "ToUnicode") cm1 -> fonts_in E file p res fsA.
Proof.
  intros E file p res r info D1 D2 S1. exists [(lit "F1", r)]. split; [exact D1 |]. intros n. unfold fsA. destruct (bseq n (lit "F1")) eqn:Q.
  - apply ReadP.bseq_ok in Q. subst n. left. split; [left; reflexivity |]. exists fA. split; [reflexivity |]. exists info, cm1, ms1. split; [exact D2 |]. split; [exact S1 |].
    split; [apply cm1_text |]. split; [repeat constructor |]. split; [repeat constructor |]. split; [reflexivity | apply fA_mapped].
  - right. split; [| reflexivity]. intros [<- | []]. discriminate.
Qed.
Lemma fonts_none : forall E file p res, entry res (lit "Font") = None -> fonts_in E file p res fs0.
Proof.
  intros E file p res H. exists []. split; [right; rewrite H; split; [missing | reflexivity] |]. intros n. right. split; [intros [] | reflexivity].
Qed.

(** ** The streams *)
Definition cBT : bytes * list obj := (lit "BT", []).
Definition cET : bytes * list obj := (lit "ET", []).
Definition cTf : bytes * list obj := (lit "Tf", [OName (lit "F1"); ONum (num_of_Z 1)]).
Definition cTj (s : bytes) : bytes * list obj := (lit "Tj", [OStr s]).
Definition flatten_cmds (cs : list (bytes * list obj)) : list obj := flat_map (fun c => snd c ++ [OKw (fst c)]) cs.
Definition c7 := [cBT; cTf; cTj [x01]; cET].
Definition c8 := [cBT; cTj (lit "x"); cET].
Definition c9 := [cBT; cTj (lit "z"); cET].
Definition c14 := [cBT; cTf; cET; cBT; cTj [x01]; cET].
Definition c12 := [cBT; cTj (lit "x"); cTj (lit "y"); cET].
Ltac hex_obj t ds := apply (ot_hex (lit t) ds); [repeat (apply hd_digit; [first [left; reflexivity | right; reflexivity] |]); apply hd_nil | repeat (apply hp_pair; [reflexivity |]); apply hp_nil].
Ltac name2 := apply (ot_name (lit "F1")); apply nb_char; [regular | discriminate |]; apply nb_char; [regular | discriminate |]; apply nb_nil.
Lemma s7_items : items (lit "BT/F1 1 Tf<01>Tj ET") (flatten_cmds c7).
Proof.
  cbn [flatten_cmds c7 flat_map fst snd app cBT cTf cTj cET]. apply (cons0 (lit "BT")); [kw_obj | | right; delim_end]. apply (cons0 (lit "/F1")); [name2 | | right; delim_end].
  apply (cons1 (lit "1")); [int_obj | | right; delim_end]. apply (cons1 (lit "Tf")); [kw_obj | | right; delim_end].
  apply (cons0 (lit "<01>")); [hex_obj "01"%string [0; 1]%nat | | left; exact I]. apply (cons0 (lit "Tj")); [kw_obj | | right; delim_end].
  apply (cons1 (lit "ET")); [kw_obj | apply nil0 | right; apply end0].
Qed.
Lemma s8_items : items (lit "BT(x)Tj ET") (flatten_cmds c8).
Proof.
  cbn [flatten_cmds c8 flat_map fst snd app cBT cTj cET]. apply (cons0 (lit "BT")); [kw_obj | | right; delim_end].
  apply (cons0 (lit "(x)")); [str_obj "x"%string | | left; exact I]. apply (cons0 (lit "Tj")); [kw_obj | | right; delim_end].
  apply (cons1 (lit "ET")); [kw_obj | apply nil0 | right; apply end0].
Qed.
Lemma s9_items : items (lit "BT(z)Tj ET") (flatten_cmds c9).
Proof.
  cbn [flatten_cmds c9 flat_map fst snd app cBT cTj cET]. apply (cons0 (lit "BT")); [kw_obj | | right; delim_end].
  apply (cons0 (lit "(z)")); [str_obj "z"%string | | left; exact I]. apply (cons0 (lit "Tj")); [kw_obj | | right; delim_end].
  apply (cons1 (lit "ET")); [kw_obj | apply nil0 | right; apply end0].
Qed.
Lemma s14_items : items (lit "BT/F1 1 Tf ET BT<01>Tj ET") (flatten_cmds c14).
Proof.
  cbn [flatten_cmds c14 flat_map fst snd app cBT cTf cTj cET]. apply (cons0 (lit "BT")); [kw_obj | | right; delim_end]. apply (cons0 (lit "/F1")); [name2 | | right; delim_end].
  apply (cons1 (lit "1")); [int_obj | | right; delim_end]. apply (cons1 (lit "Tf")); [kw_obj | | right; delim_end].
  apply (cons1 (lit "ET")); [kw_obj | | right; delim_end]. apply (cons1 (lit "BT")); [kw_obj | | right; delim_end].
  apply (cons0 (lit "<01>")); [hex_obj "01"%string [0; 1]%nat | | left; exact I]. apply (cons0 (lit "Tj")); [kw_obj | | right; delim_end].
  apply (cons1 (lit "ET")); [kw_obj | apply nil0 | right; apply end0].
Qed.
Lemma s12_items : items (joint [lit "BT(x)Tj"; lit "(y)Tj ET"]) (flatten_cmds c12).
Proof.
  cbn [flatten_cmds c12 flat_map fst snd app cBT cTj cET].
  change (joint [lit "BT(x)Tj"; lit "(y)Tj ET"]) with (lit "BT" ++ lit "(x)" ++ lit "Tj" ++ [x0a] ++ lit "(y)" ++ lit "Tj" ++ [x20] ++ lit "ET" ++ [x0a]).
  apply cons0; [kw_obj | | right; delim_end]. apply cons0; [str_obj "x"%string | | left; exact I]. apply cons0; [kw_obj | | right; delim_end].
  apply it_cons; [gaps | str_obj "y"%string | | left; exact I]. apply cons0; [kw_obj | | right; delim_end]. apply it_cons; [gaps | kw_obj | apply it_nil; gaps | right; delim_end].
Qed.
Ltac cmds := apply commands_flat; repeat constructor; discriminate.
Ltac alt := repeat constructor; intros Q; discriminate Q.
Lemma plain_decoded : forall b : bytes, decoded (fst plain_font) (snd plain_font) b b.
Proof. induction b as [| x b IH]; [apply de_end; reflexivity |]. change (x :: b) with ([x] ++ b). apply de_kept; [reflexivity | reflexivity | exact IH]. Qed.
Lemma fA_decoded : decoded (fst fA) (snd fA) [x01] (lit "A").
Proof. apply (de_mapped _ 1 [x01] [] (lit "A") []); [reflexivity | reflexivity | apply de_end; reflexivity]. Qed.
Lemma show : forall tj f s t, decoded (fst f) (snd f) s t -> line tj f (lit "Tj") [OStr s] t.
Proof. intros tj f s t D. apply ln_show; [left; reflexivity | exact D]. Qed.
Lemma s7_lines : stream_lines fsA (lit "BT/F1 1 Tf<01>Tj ET") [lit "A"].
Proof.
  exists (flatten_cmds c7), c7. split; [apply items_tokens, s7_items |]. split; [cmds |]. split; [alt |].
  apply tx_begin. apply tx_font. change (font_named fsA _) with fA. apply tx_line; [apply show, fA_decoded |]. apply tx_finish. apply tx_end.
Qed.
Lemma s7_lines0 : stream_lines fs0 (lit "BT/F1 1 Tf<01>Tj ET") [[x01]].
Proof.
  exists (flatten_cmds c7), c7. split; [apply items_tokens, s7_items |]. split; [cmds |]. split; [alt |].
  apply tx_begin. apply tx_font. apply tx_line; [apply show, plain_decoded |]. apply tx_finish. apply tx_end.
Qed.
Lemma s8_lines : stream_lines fs0 (lit "BT(x)Tj ET") [lit "x"].
Proof.
  exists (flatten_cmds c8), c8. split; [apply items_tokens, s8_items |]. split; [cmds |]. split; [alt |].
  apply tx_begin. apply tx_line; [apply show, plain_decoded |]. apply tx_finish. apply tx_end.
Qed.
Lemma s9_lines : stream_lines fs0 (lit "BT(z)Tj ET") [lit "z"].
Proof.
  exists (flatten_cmds c9), c9. split; [apply items_tokens, s9_items |]. split; [cmds |]. split; [alt |].
  apply tx_begin. apply tx_line; [apply show, plain_decoded |]. apply tx_finish. apply tx_end.
Qed.
Lemma s14_text : tokens (lit "BT/F1 1 Tf ET BT<01>Tj ET") (flatten_cmds c14) /\ commands (flatten_cmds c14) c14 /\ Forall alternating c14 /\
  graphics fsA all_strings false plain_font [] c14 [lit "A"].
Proof.
  split; [apply items_tokens, s14_items |]. split; [cmds |]. split; [alt |].
  apply gr_begin, gr_font. change (font_named fsA _) with fA. apply gr_finish, gr_begin. apply gr_line; [apply show, fA_decoded |]. apply gr_finish, gr_end.
Qed.
Lemma s7_graphics : commands (flatten_cmds c7) c7 /\ Forall alternating c7 /\ selecting c7 /\ graphics fsA all_strings false plain_font [] c7 [lit "A"].
Proof.
  split; [cmds |]. split; [alt |]. split.
  - intros a k ops b Q SH. destruct a as [| a1 [| a2 [| a3 [| a4 a]]]]; cbn [app c7] in Q; injection Q; intros; subst;
      try (exfalso; destruct SH as [[Z0 | [Z0 | Z0]] | Z0]; discriminate Z0).
    + exists [cBT], [OName (lit "F1"); ONum (num_of_Z 1)], []. split; [reflexivity | constructor].
    + destruct a; discriminate.
  - apply gr_begin, gr_font. change (font_named fsA _) with fA. apply gr_line; [apply show, fA_decoded |]. apply gr_finish, gr_end.
Qed.

(** ** The pages of the first document *)
Definition res1 : dict := [(lit "Font", ODict [(lit "F1", ref 4)])].
Definition page3 : dict := [(lit "Resources", ODict res1); (lit "Contents", ref 7)].
Definition page6 : dict := [(lit "Contents", OArr [ref 7; ref 8])].
Definition root2 : dict := [(lit "Kids", OArr [ref 3; ref 6])].
Definition cat1 : dict := [(lit "Pages", ref 2)].
Lemma no_dict : forall E file p d k, entry d k = None -> dict_at E file p d k [].
Proof. intros E file p d k H. right. rewrite H. split; [missing | reflexivity]. Qed.
Lemma book_pages : pages_of E1 book book_p cat1 [root2; page3; page6].
Proof.
  exists root2, [ref 3; ref 6], [PT 3 page3 []; PT 6 page6 []]. split; [indirect |]. split; [apply direct_array; reflexivity |]. split; [| reflexivity].
  eapply un_page; [intros [] | page9 | apply no_array; reflexivity | constructor |].
  eapply un_page; [intros [] | page9 | apply no_array; reflexivity | constructor |]. constructor.
Qed.
Lemma page3_fonts : fonts_of E1 book book_p page3 fsA.
Proof.
  exists res1. split; [left; direct |]. apply (fonts_one _ _ _ _ (ref 4) [(lit "ToUnicode", ref 5)]); [left; direct | left; indirect |]. left. refd 5 cm1.
Qed.
Lemma page6_fonts : fonts_of E1 book book_p page6 fs0.
Proof. exists []. split; [apply no_dict; reflexivity | apply fonts_none; reflexivity]. Qed.
Lemma page6_contents : contents_of E1 book book_p page6 [lit "BT/F1 1 Tf<01>Tj ET"; lit "BT(x)Tj ET"].
Proof.
  eapply ct_array; [reflexivity |]. apply si_ref; [refd 7 (lit "BT/F1 1 Tf<01>Tj ET") |]. apply si_ref; [refd 8 (lit "BT(x)Tj ET") |]. apply si_nil.
Qed.
Lemma page3_contents : contents_of E1 book book_p page3 [lit "BT/F1 1 Tf<01>Tj ET"].
Proof. apply ct_stream. refd 7 (lit "BT/F1 1 Tf<01>Tj ET"). Qed.
Lemma cat1_here : of_document E1 book book_p cat1.
Proof. docd 1 cat1. apply hd_here. Qed.
Lemma book_lines : Forall2 (page_lines E1 book book_p) [root2; page3; page6] [[]; [lit "A"]; [[x01]; lit "x"]].
Proof.
  constructor; [| constructor; [| constructor; [| constructor]]].
  - exists fs0, [], []. split; [exists []; split; [apply no_dict; reflexivity | apply fonts_none; reflexivity] |]. split; [| split; [constructor | reflexivity]].
    apply ct_none; [discriminate | missing].
  - exists fsA, [lit "BT/F1 1 Tf<01>Tj ET"], [[lit "A"]]. split; [apply page3_fonts |]. split; [apply page3_contents |]. split; [| reflexivity].
    constructor; [apply s7_lines | constructor].
  - exists fs0, [lit "BT/F1 1 Tf<01>Tj ET"; lit "BT(x)Tj ET"], [[[x01]]; [lit "x"]]. split; [apply page6_fonts |]. split; [apply page6_contents |]. split; [| reflexivity].
    constructor; [apply s7_lines0 | constructor; [apply s8_lines | constructor]].
Qed.
Lemma C73_ex : order_ok OD1 /\ s_input S6 = Some book /\ parse E1 OD1 30 S6 [] = (book_ops, Ok PNone) /\
  load 30 E1 (o_objects OD1) book [] (new_parser book) = Ok (None, book_p) /\ offsets_ok (pxref book_p) /\
  of_document E1 book book_p cat1 /\ pages_of E1 book book_p cat1 [root2; page3; page6] /\
  Forall2 (page_lines E1 book book_p) [root2; page3; page6] [[]; [lit "A"]; [[x01]; lit "x"]].
Proof.
  split; [apply OD1_ok |]. split; [reflexivity |]. split; [apply book_parse |]. split; [apply book_load |]. split; [apply book_offsets |].
  split; [apply cat1_here |]. split; [apply book_pages | apply book_lines].
Qed.
Lemma C74_ex : In page3 [root2; page3; page6] /\ fonts_of E1 book book_p page3 fsA /\ contents_of E1 book book_p page3 [lit "BT/F1 1 Tf<01>Tj ET"] /\
  tokens (lit "BT/F1 1 Tf<01>Tj ET") (flatten_cmds c7) /\ commands (flatten_cmds c7) c7 /\ Forall alternating c7 /\ selecting c7 /\
  graphics fsA all_strings false plain_font [] c7 [lit "A"].
Proof.
  split; [right; left; reflexivity |]. split; [apply page3_fonts |]. split; [apply page3_contents |]. split; [apply items_tokens, s7_items | apply s7_graphics].
Qed.
Lemma C75_ex : In page6 [root2; page3; page6] /\ fonts_of E1 book book_p page6 fs0 /\ contents_of E1 book book_p page6 [lit "BT/F1 1 Tf<01>Tj ET"; lit "BT(x)Tj ET"] /\
  Forall whole [lit "BT/F1 1 Tf<01>Tj ET"; lit "BT(x)Tj ET"] /\ exists l, tokens (joint [lit "BT/F1 1 Tf<01>Tj ET"; lit "BT(x)Tj ET"]) l /\ commands l (c7 ++ c8) /\
  Forall alternating (c7 ++ c8) /\ text fs0 all_strings None (c7 ++ c8) [[x01]; lit "x"].
Proof.
  split; [right; right; left; reflexivity |]. split; [apply page6_fonts |]. split; [apply page6_contents |]. split.
  - constructor; [| constructor; [| constructor]].
    + exists (flatten_cmds c7), c7. split; [apply s7_items |]. split; [cmds |]. split.
      * right. exists (removelast (flatten_cmds c7)), (lit "ET"). reflexivity.
      * apply (cl_object [] [cTf; cTj [x01]] [] []); [repeat constructor; discriminate | constructor].
    + exists (flatten_cmds c8), c8. split; [apply s8_items |]. split; [cmds |]. split.
      * right. exists (removelast (flatten_cmds c8)), (lit "ET"). reflexivity.
      * apply (cl_object [] [cTj (lit "x")] [] []); [repeat constructor; discriminate | constructor].
  - exists (flatten_cmds c7 ++ flatten_cmds c8). split.
    + apply items_tokens. change (joint [lit "BT/F1 1 Tf<01>Tj ET"; lit "BT(x)Tj ET"]) with (lit "BT/F1 1 Tf<01>Tj ET" ++ x0a :: (lit "BT(x)Tj ET" ++ x0a :: [])).
      apply items_then; [apply s7_items |]. rewrite <- (app_nil_r (flatten_cmds c8)). apply items_then; [apply s8_items | apply it_nil, gap_nil].
    + split; [unfold flatten_cmds; rewrite <- flat_map_app; cmds |]. split; [alt |]. cbn [app c7 c8].
      apply tx_begin. apply tx_font. apply tx_line; [apply show, plain_decoded |]. apply tx_finish. apply tx_begin. apply tx_line; [apply show, plain_decoded |]. apply tx_finish. apply tx_end.
Qed.

(** ** The second document *)
Definition res5 : dict := [(lit "Font", ODict [(lit "F1", ref 5)])].
Definition oroot : dict := [(lit "Kids", OArr [ref 3; ref 4; ref 10; ref 11]); (lit "Resources", ODict res5)].
Definition opage3 : dict := [(lit "Parent", ref 2); (lit "Contents", ref 7)].
Definition opage4 : dict := [(lit "Parent", ref 2); (lit "Contents", ref 8)].
Definition opage10 : dict := [(lit "Contents", OArr [ref 12; ref 13])].
Definition opage11 : dict := [(lit "Resources", ODict res5); (lit "Contents", ref 14)].
Definition opages : list dict := [oroot; opage3; opage4; opage10; opage11].
Lemma odd_pages : pages_of E1 odd odd_p cat1 opages.
Proof.
  exists oroot, [ref 3; ref 4; ref 10; ref 11], [PT 3 opage3 []; PT 4 opage4 []; PT 10 opage10 []; PT 11 opage11 []].
  split; [indirect |]. split; [apply direct_array; reflexivity |]. split; [| reflexivity].
  eapply un_page; [intros [] | page9 | apply no_array; reflexivity | constructor |].
  eapply un_page; [intros [] | page9 | apply no_array; reflexivity | constructor |].
  eapply un_page; [intros [] | page9 | apply no_array; reflexivity | constructor |].
  eapply un_page; [intros [] | page9 | apply no_array; reflexivity | constructor |]. constructor.
Qed.
Lemma odd_here : of_document E1 odd odd_p cat1.
Proof. docd 1 cat1. apply hd_here. Qed.
Lemma res5_fonts : fonts_in E1 odd odd_p res5 fsA.
Proof. apply (fonts_one _ _ _ _ (ref 5) [(lit "ToUnicode", ref 6)]); [left; direct | left; indirect |]. left. refd 6 cm1. Qed.
Ltac not_there := let H := fresh in intros H; unfold odd_ops in H; let l := fresh in let Q := fresh in
  remember (fst (parse E1 OD1 30 S7 [])) as l eqn:Q; vm_compute in Q; subst l; repeat (destruct H as [H | H]; [try discriminate H; vm_compute in H; discriminate H |]); exact H.
Lemma odd_A : ~ In (OpEv (EWrite FText (lit "A"))) odd_ops.
Proof. not_there. Qed.
Lemma odd_y : ~ In (OpEv (EWrite FText (lit "y"))) odd_ops.
Proof. not_there. Qed.
Lemma odd_z : ~ In (OpEv (EWrite FText (lit "z"))) odd_ops.
Proof. not_there. Qed.
Lemma not_out : forall ls t ops, In t ls -> ~ In (OpEv (EWrite FText t)) ops -> ~ written_out (lines ls) ops.
Proof.
  intros ls t ops I N (a & b & ->). apply N. apply in_or_app. right. apply in_or_app. left. apply in_map. unfold lines. apply in_flat_map. exists t. split; [exact I | left; reflexivity].
Qed.
Ltac odd_run := split; [apply OD1_ok |]; split; [reflexivity |]; split; [apply odd_parse |]; split; [apply odd_load |]; split; [apply odd_offsets |].
Lemma font_refuted : exists E OD fuel S pw ops file p h pages page fs s l cs ls, order_ok OD /\ s_input S = Some file /\ parse E OD fuel S pw = (ops, Ok PNone) /\
  load fuel E (o_objects OD) file pw (new_parser file) = Ok (None, p) /\ offsets_ok (pxref p) /\
  of_document E file p h /\ pages_of E file p h pages /\ In page pages /\ fonts_of E file p page fs /\ contents_of E file p page [s] /\
  tokens s l /\ commands l cs /\ Forall alternating cs /\ graphics fs all_strings false plain_font [] cs ls /\ ~ written_out (lines ls) ops.
Proof.
  exists E1, OD1, 30%nat, S7, [], odd_ops, odd, odd_p, cat1, opages, opage11, fsA, (lit "BT/F1 1 Tf ET BT<01>Tj ET"), (flatten_cmds c14), c14, [lit "A"].
  odd_run. split; [apply odd_here |]. split; [apply odd_pages |]. split; [do 4 right; left; reflexivity |].
  split; [exists res5; split; [left; direct | apply res5_fonts] |]. split; [apply ct_stream; refd 14 (lit "BT/F1 1 Tf ET BT<01>Tj ET") |].
  destruct s14_text as (T1 & T2 & T3 & T4). split; [exact T1 |]. split; [exact T2 |]. split; [exact T3 |]. split; [exact T4 |].
  eapply not_out; [left; reflexivity | apply odd_A].
Qed.
Lemma joint_refuted : exists E OD fuel S pw ops file p h pages page fs ss l cs ls, order_ok OD /\ s_input S = Some file /\ parse E OD fuel S pw = (ops, Ok PNone) /\
  load fuel E (o_objects OD) file pw (new_parser file) = Ok (None, p) /\ offsets_ok (pxref p) /\
  of_document E file p h /\ pages_of E file p h pages /\ In page pages /\ fonts_of E file p page fs /\ contents_of E file p page ss /\
  tokens (joint ss) l /\ commands l cs /\ Forall alternating cs /\ text fs all_strings None cs ls /\ ~ written_out (lines ls) ops.
Proof.
  exists E1, OD1, 30%nat, S7, [], odd_ops, odd, odd_p, cat1, opages, opage10, fs0, [lit "BT(x)Tj"; lit "(y)Tj ET"], (flatten_cmds c12), c12, [lit "x"; lit "y"].
  odd_run. split; [apply odd_here |]. split; [apply odd_pages |]. split; [do 3 right; left; reflexivity |].
  split; [exists []; split; [apply no_dict; reflexivity | apply fonts_none; reflexivity] |].
  split; [eapply ct_array; [reflexivity |]; apply si_ref; [refd 12 (lit "BT(x)Tj") |]; apply si_ref; [refd 13 (lit "(y)Tj ET") |]; apply si_nil |].
  split; [apply items_tokens, s12_items |]. split; [cmds |]. split; [alt |]. split.
  - apply tx_begin. apply tx_line; [apply show, plain_decoded |]. apply tx_line; [apply show, plain_decoded |]. apply tx_finish. apply tx_end.
  - eapply not_out; [right; left; reflexivity | apply odd_y].
Qed.
Lemma inherited_refuted : exists E OD fuel S pw ops file p h pages page res fs s ls, order_ok OD /\ s_input S = Some file /\ parse E OD fuel S pw = (ops, Ok PNone) /\
  load fuel E (o_objects OD) file pw (new_parser file) = Ok (None, p) /\ offsets_ok (pxref p) /\
  of_document E file p h /\ pages_of E file p h pages /\ In page pages /\ resources E file p page res /\ fonts_in E file p res fs /\ contents_of E file p page [s] /\
  stream_lines fs s ls /\ ~ written_out (lines ls) ops.
Proof.
  exists E1, OD1, 30%nat, S7, [], odd_ops, odd, odd_p, cat1, opages, opage3, res5, fsA, (lit "BT/F1 1 Tf<01>Tj ET"), [lit "A"].
  odd_run. split; [apply odd_here |]. split; [apply odd_pages |]. split; [do 1 right; left; reflexivity |].
  split; [apply (rs_above E1 odd odd_p opage3 oroot); [missing | indirect | apply rs_own; direct] |]. split; [apply res5_fonts |].
  split; [apply ct_stream; refd 7 (lit "BT/F1 1 Tf<01>Tj ET") |]. split; [apply s7_lines |]. eapply not_out; [left; reflexivity | apply odd_A].
Qed.
Lemma contents_refuted : exists E OD fuel S pw ops file p h pages page a fs s ls, order_ok OD /\ s_input S = Some file /\ parse E OD fuel S pw = (ops, Ok PNone) /\
  load fuel E (o_objects OD) file pw (new_parser file) = Ok (None, p) /\ offsets_ok (pxref p) /\
  of_document E file p h /\ pages_of E file p h pages /\ In page pages /\ fonts_of E file p page fs /\
  typed E file p is_array (entry page (lit "Contents")) a /\ streams_in E file p a [s] /\ stream_lines fs s ls /\ ~ written_out (lines ls) ops.
Proof.
  exists E1, OD1, 30%nat, S7, [], odd_ops, odd, odd_p, cat1, opages, opage4, [ref 9], fs0, (lit "BT(z)Tj ET"), [lit "z"].
  odd_run. split; [apply odd_here |]. split; [apply odd_pages |]. split; [do 2 right; left; reflexivity |].
  split; [exists []; split; [apply no_dict; reflexivity | apply fonts_none; reflexivity] |]. split; [indirect |].
  split; [apply si_ref; [refd 9 (lit "BT(z)Tj ET") | apply si_nil] |]. split; [apply s9_lines |]. eapply not_out; [left; reflexivity | apply odd_z].
Qed.
Definition ufile : dict := [(lit "UF", OStr (lit "u.txt")); (lit "EF", ODict [(lit "UF", ref 16)])].
Definition otree : dict := [(lit "Names", OArr [OStr (lit "k"); ODict ufile])].
Lemma unicode_refuted : exists E OD fuel S pw ops file p h fs ef data, order_ok OD /\ s_input S = Some file /\ parse E OD fuel S pw = (ops, Ok PNone) /\
  load fuel E (o_objects OD) file pw (new_parser file) = Ok (None, p) /\ offsets_ok (pxref p) /\ of_document E file p h /\ attached E file p h fs /\
  typed E file p is_dict (entry fs (lit "EF")) ef /\ streamed E file p (entry ef (lit "UF")) data /\ (forall x, ~ In (OpEv (EDump x data)) ops).
Proof.
  exists E1, OD1, 30%nat, S7, [], odd_ops, odd, odd_p, [(lit "EmbeddedFiles", ODict otree)], ufile, [(lit "UF", ref 16)], (lit "abc"). odd_run.
  split; [docd 15 [(lit "EmbeddedFiles", ODict otree)]; apply hd_here |]. split.
  { apply (at_tree E1 odd odd_p _ [(OStr (lit "k"), ODict ufile)] (OStr (lit "k")) (ODict ufile)); [| left; reflexivity | direct]. exists otree, []. split; [direct |]. split; [| constructor].
    apply (nb E1 odd odd_p _ [OStr (lit "k"); ODict ufile] [] [] []); [left; direct | right; split; [missing | reflexivity] | constructor]. }
  split; [direct |]. split; [refd 16 (lit "abc") |]. intros x. not_there.
Qed.
Definition oform : dict := [(lit "XFA", ref 18)].
Lemma form_refuted : exists E OD fuel S pw ops file p h a data, order_ok OD /\ s_input S = Some file /\ parse E OD fuel S pw = (ops, Ok PNone) /\
  load fuel E (o_objects OD) file pw (new_parser file) = Ok (None, p) /\ offsets_ok (pxref p) /\ of_document E file p h /\
  typed E file p is_array (entry h (lit "XFA")) a /\ joined E file p a data /\ (forall x, ~ In (OpEv (EDump x data)) ops).
Proof.
  exists E1, OD1, 30%nat, S7, [], odd_ops, odd, odd_p, oform, [OStr (lit "x"); ref 19], (lit "xyz"). odd_run.
  split; [docd 17 oform; apply hd_here |]. split; [indirect |]. split.
  { apply jn_other; [discriminate |]. apply (jn_stream E1 odd odd_p _ _ (lit "xyz") []); [| constructor]. refd 19 (lit "xyz"). }
  intros x. not_there.
Qed.
