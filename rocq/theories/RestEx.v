(** RestEx.v -- witnesses for PropRest.v. *)
From Verif Require Import Base BaseP Msg Reader ReaderP Num Lexer Obj ReadObj Env Getters Crypt GetObj Load Tree Output Parse SpecRead SpecLook SpecTree
  FetchP LookP SecurityP FetchEx Md5 SpecFetch SpecOut StreamEx XrefEx TreeEx RawP ExtractP OutEx SpecSource SourceP AttachP SourceEx
  SpecLex SpecObj ReadEx SpecText SpecPage TextEx PageP SpecPages PagesP PagesEx SpecForm RestP.
From Coq Require Import Strings.String Sorting.Permutation.

Lemma C76_ex : In page3 [root2; page3; page6] /\ resources E1 book book_p page3 res1 /\ typed E1 book book_p is_dict (entry page3 (lit "Resources")) res1 /\
  fonts_in E1 book book_p res1 fsA /\ contents_of E1 book book_p page3 [lit "BT/F1 1 Tf<01>Tj ET"] /\ stream_lines fsA (lit "BT/F1 1 Tf<01>Tj ET") [lit "A"].
Proof.
  assert (T : typed E1 book book_p is_dict (entry page3 (lit "Resources")) res1) by direct.
  split; [right; left; reflexivity|]. split; [apply rs_own; exact T|]. split; [exact T|].
  split; [|split; [apply page3_contents|apply s7_lines]].
  apply (fonts_one _ _ _ _ (ref 4) [(lit "ToUnicode", ref 5)]); [left; direct | left; indirect |]. left. refd 5 cm1.
Qed.
Lemma C77_ex : In page6 [root2; page3; page6] /\ fonts_of E1 book book_p page6 fs0 /\ entry page6 (lit "Contents") = Some (OArr [ref 7; ref 8]) /\
  streams_in E1 book book_p [ref 7; ref 8] [lit "BT/F1 1 Tf<01>Tj ET"; lit "BT(x)Tj ET"] /\
  Forall2 (stream_lines fs0) [lit "BT/F1 1 Tf<01>Tj ET"; lit "BT(x)Tj ET"] [[[x01]]; [lit "x"]].
Proof.
  split; [right; right; left; reflexivity|]. split; [apply page6_fonts|]. split; [reflexivity|]. split.
  - apply si_ref; [refd 7 (lit "BT/F1 1 Tf<01>Tj ET") |]. apply si_ref; [refd 8 (lit "BT(x)Tj ET") |]. apply si_nil.
  - constructor; [apply s7_lines0 | constructor; [apply s8_lines | constructor]].
Qed.

(** An embedded file under both names, a page with a font that maps nothing. *)
Local Definition strm (s : string) : bytes := lit "<<>>stream" ++ x0a :: lit s ++ x0a :: lit "endstream".
Definition both : bytes :=
  lit "1 0 obj<</EmbeddedFiles<</Names[(k)<</F(a.txt)/UF(a.txt)/EF<</F 2 0 R/UF 2 0 R>>>>]>>>> endobj " ++
  lit "2 0 obj" ++ strm "abc" ++ lit " endobj " ++
  lit "3 0 obj<</Pages 4 0 R>> endobj 4 0 obj<</Kids[5 0 R]>> endobj " ++
  lit "5 0 obj<</Resources<</Font<</F1<</Type/Font>>>>>>/Contents 6 0 R>> endobj " ++
  lit "6 0 obj" ++ strm "BT/F1 1 Tf<01>Tj ET" ++ lit " endobj ".
Definition S9 : sys := mksys (Some both) (fun _ => true) StatNotExist.
Definition both_p : pst := match load 20 E1 (fun l => l) both [] (new_parser both) with Ok (_, p) => p | _ => nothing end.
Definition both_ops : list op := fst (parse E1 OD1 20 S9 []).
Lemma both_load : load 20 E1 (o_objects OD1) both [] (new_parser both) = Ok (None, both_p).
Proof. vm_compute. reflexivity. Qed.
Lemma both_parse : parse E1 OD1 20 S9 [] = (both_ops, Ok PNone).
Proof. vm_compute. reflexivity. Qed.
Lemma both_offsets : offsets_ok (pxref both_p).
Proof.
  intros n e H T. unfold xget in H. remember (pxref both_p) as x eqn:Q. vm_compute in Q. subst x. cbn [mget] in H.
  repeat match type of H with (if ?c then _ else _) = _ => destruct c; [injection H as <-; cbn; lia|] end. discriminate.
Qed.
Definition bef : dict := [(lit "F", ref 2); (lit "UF", ref 2)].
Definition bfs : dict := [(lit "F", OStr (lit "a.txt")); (lit "UF", OStr (lit "a.txt")); (lit "EF", ODict bef)].
Definition btree : dict := [(lit "Names", OArr [OStr (lit "k"); ODict bfs])].
Lemma C78_ex : order_ok OD1 /\ s_input S9 = Some both /\ parse E1 OD1 20 S9 [] = (both_ops, Ok PNone) /\
  load 20 E1 (o_objects OD1) both [] (new_parser both) = Ok (None, both_p) /\ offsets_ok (pxref both_p) /\
  of_document E1 both both_p [(lit "EmbeddedFiles", ODict btree)] /\ attached E1 both both_p [(lit "EmbeddedFiles", ODict btree)] bfs /\ ~ is_url E1 both both_p bfs /\
  typed E1 both both_p is_dict (entry bfs (lit "EF")) bef /\ streamed E1 both both_p (entry bef (lit "UF")) (lit "abc") /\ streamed E1 both both_p (entry bef (lit "F")) (lit "abc") /\
  typed_or E1 both both_p is_string (entry bfs (lit "F")) zeros (lit "a.txt").
Proof.
  split; [apply OD1_ok |]. split; [reflexivity |]. split; [apply both_parse |]. split; [apply both_load |]. split; [apply both_offsets |].
  split; [docd 1 [(lit "EmbeddedFiles", ODict btree)]; apply hd_here |]. split.
  { apply (at_tree E1 both both_p _ [(OStr (lit "k"), ODict bfs)] (OStr (lit "k")) (ODict bfs)); [| left; reflexivity | direct]. exists btree, []. split; [direct |]. split; [| constructor].
    apply (nb E1 both both_p _ [OStr (lit "k"); ODict bfs] [] [] []); [left; direct | right; split; [missing | reflexivity] | constructor]. }
  split; [plain_fs |]. split; [direct |]. split; [refd 2 (lit "abc") |]. split; [refd 2 (lit "abc") | left; direct].
Qed.
Lemma C79_ex : of_document E1 att att_p form6 /\ entry form6 (lit "XFA") = Some (OArr [OStr (lit "x"); ref 5; OStr (lit "y"); ref 10]) /\
  joined E1 att att_p [OStr (lit "x"); ref 5; OStr (lit "y"); ref 10] (lit "abcxyz").
Proof.
  destruct C67_ex as [A B]. split; [exact A|]. split; [reflexivity|].
  apply jn_other; [discriminate |]. apply (jn_stream E1 att att_p _ _ (lit "abc") (lit "xyz")).
  { exists 5, 0, {| inum := 5; igen := 0; ival := ODict []; istream := Some (lit "abc") |}. split; [reflexivity |]. split; [fetch9 | reflexivity]. }
  apply jn_other; [discriminate |]. apply (jn_stream E1 att att_p _ _ (lit "xyz") []); [| constructor].
  exists 10, 0, {| inum := 10; igen := 0; ival := ODict []; istream := Some (lit "xyz") |}. split; [reflexivity |]. split; [fetch9 | reflexivity].
Qed.

Definition fsE (n : bytes) : option ((Z -> option bytes) * Z) := if bseq n (lit "F1") then Some plain_font else None.
Definition font1 : obj := ODict [(lit "Type", OName (lit "Font"))].
Definition page5 : dict := [(lit "Resources", ODict [(lit "Font", ODict [(lit "F1", font1)])]); (lit "Contents", ref 6)].
Definition cat3 : dict := [(lit "Pages", ref 4)].
Definition root4 : dict := [(lit "Kids", OArr [ref 5])].
Lemma C108_ex : of_document E1 both both_p cat3 /\ pages_of E1 both both_p cat3 [root4; page5] /\
  In page5 [root4; page5] /\ fonts_of E1 both both_p page5 fsE /\ contents_of E1 both both_p page5 [lit "BT/F1 1 Tf<01>Tj ET"] /\
  (forall n, readable_font (fsE n) (fsE n)) /\ stream_lines fsE (lit "BT/F1 1 Tf<01>Tj ET") [[x01]] /\ (forall n f c, fsE n = Some f -> fst f c = None).
Proof.
  split; [docd 3 cat3; apply hd_here|]. split.
  { exists root4, [ref 5], [PT 5 page5 []]. split; [indirect |]. split; [apply direct_array; reflexivity |]. split; [| reflexivity].
    eapply un_page; [intros [] | page9 | apply no_array; reflexivity | constructor |]. constructor. }
  split; [right; left; reflexivity|]. split.
  { exists [(lit "Font", ODict [(lit "F1", font1)])]. split; [left; direct|]. exists [(lit "F1", font1)]. split; [left; direct|].
    intros n. unfold fsE. destruct (bseq n (lit "F1")) eqn:N; [left|right].
    - apply ReadP.bseq_ok in N. subst n. split; [left; reflexivity|]. exists plain_font. split; [reflexivity|].
      exists [(lit "Type", OName (lit "Font"))], [], []. split; [left; direct|]. split; [right; split; [discriminate|reflexivity]|].
      split; [refine (cm_end [] [] _ _); [apply nil0|constructor]|]. split; [constructor|]. split; [constructor|]. split; [reflexivity|]. intros x. left. split; [constructor|reflexivity].
    - split; [intros [H|[]]; rewrite <- H in N; discriminate N|reflexivity]. }
  split; [apply ct_stream; refd 6 (lit "BT/F1 1 Tf<01>Tj ET")|]. split.
  { intros n. unfold fsE. destruct (bseq n (lit "F1")); [split; auto|exact I]. intros c. exact I. }
  split.
  { apply (stream_same fs0); [|apply s7_lines0]. intros n. unfold font_named, fs0, fsE. destruct (bseq n (lit "F1")); split; auto. }
  intros n f c. unfold fsE. destruct (bseq n (lit "F1")); [|discriminate]. intros H. injection H as <-. reflexivity.
Qed.
