(** SourceEx.v -- witnesses for PropSource.v. *)
From Verif Require Import Base BaseP Msg Reader ReaderP Num Lexer Obj ReadObj Env Getters Crypt GetObj Load Tree Output Parse SpecRead SpecLook SpecTree
  FetchP LookP SecurityP FetchEx Md5 SpecFetch SpecOut TreeEx RawP ExtractP OutEx SpecSource SourceP AttachP.
From Coq Require Import Strings.String Sorting.Permutation.

Local Definition strm (s : string) : bytes := lit "<<>>stream" ++ x0a :: lit s ++ x0a :: lit "endstream".
(** A tree of embedded files with two levels (1-5), a tree of addresses (1), a
    form in two streams (6), file specifications that are addresses (7, 11), an
    annotation with a file (8-10), a remote file with parameters (12), two
    chained launch actions (13). *)
Definition att : bytes :=
  lit "1 0 obj<</Names<</EmbeddedFiles 2 0 R/URLS<</Names[(http://k)1]>>>>>> endobj " ++
  lit "2 0 obj<</Kids[3 0 R<</Names[(b)(other.txt)]>>]>> endobj " ++
  lit "3 0 obj<</Names[(a)4 0 R]>> endobj " ++
  lit "4 0 obj<</F(a.txt)/EF<</F 5 0 R>>>> endobj " ++
  lit "5 0 obj" ++ strm "abc" ++ lit " endobj " ++
  lit "6 0 obj<</XFA[(x)5 0 R(y)10 0 R]>> endobj " ++
  lit "7 0 obj<</A<</S/GoToR/F<</FS(URL)/F(http://f)>>>>>> endobj " ++
  lit "8 0 obj<</Subtype/FileAttachment/FS 9 0 R>> endobj " ++
  lit "9 0 obj<</F(b.txt)/EF<</F 10 0 R>>>> endobj " ++
  lit "10 0 obj" ++ strm "xyz" ++ lit " endobj " ++
  lit "11 0 obj<</A<</S/GoToR/F<</FS/URL/F(http://n)>>>>>> endobj " ++
  lit "12 0 obj<</A<</S/GoToR/F<</F(doc.pdf)/P(x)>>>>>> endobj " ++
  lit "13 0 obj<</A<</S/Launch/F<</F(one)>>/Next<</S/Launch/F<</F(two)>>>>>>>> endobj " ++
  lit "14 0 obj<</OpenAction<</S/JavaScript/JS(go)>>/URI(http://u)>> endobj ".
Definition S4 : sys := mksys (Some att) (fun _ => true) StatNotExist.
Definition att_p : pst := match load 20 E1 (fun l => l) att [] (new_parser att) with Ok (_, p) => p | _ => nothing end.
Definition att_ops : list op := fst (parse E1 OD1 20 S4 []).
Lemma att_load : load 20 E1 (o_objects OD1) att [] (new_parser att) = Ok (None, att_p).
Proof. vm_compute. reflexivity. Qed.
Lemma att_parse : parse E1 OD1 20 S4 [] = (att_ops, Ok PNone).
Proof. vm_compute. reflexivity. Qed.
Lemma att_offsets : offsets_ok (pxref att_p).
Proof.
  intros n e H T. unfold xget in H. remember (pxref att_p) as x eqn:Q. vm_compute in Q. subst x. cbn [mget] in H.
  repeat match type of H with (if ?c then _ else _) = _ => destruct c; [injection H as <-; cbn; lia|] end. discriminate.
Qed.
Ltac indirect := eexists; split; [apply v_ref; fetch9 | reflexivity].
Ltac docd n d := exists n, (plain n (ODict d)), d; split; [used |]; split; [fetch9 |]; split; [reflexivity |].

(** ** the pieces of the document *)
Definition names1 : dict := [(lit "EmbeddedFiles", ref 2); (lit "URLS", ODict [(lit "Names", OArr [OStr (lit "http://k"); ONum (num_of_Z 1)])])].
Definition fs4 : dict := [(lit "F", OStr (lit "a.txt")); (lit "EF", ODict [(lit "F", ref 5)])].
Definition prs : list (obj * obj) := [(OStr (lit "a"), ref 4); (OStr (lit "b"), OStr (lit "other.txt"))].
Lemma names1_here : of_document E1 att att_p names1.
Proof.
  docd 1 [(lit "Names", ODict names1)]. eapply hd_dict; [left; reflexivity | apply hd_here].
Qed.
Lemma prs_here : pairs_of E1 att att_p names1 "EmbeddedFiles" prs.
Proof.
  exists [(lit "Kids", OArr [ref 3; ODict [(lit "Names", OArr [OStr (lit "b"); OStr (lit "other.txt")])]])], [3].
  split; [indirect |]. split; [| repeat constructor; intros []].
  apply (nb E1 att att_p _ [] [ref 3; ODict [(lit "Names", OArr [OStr (lit "b"); OStr (lit "other.txt")])]] [3] (flat prs)); [right; split; [missing | reflexivity] | left; direct |].
  apply (ni_ref E1 att att_p 3 0 _ [(lit "Names", OArr [OStr (lit "a"); ref 4])] [] [OStr (lit "a"); ref 4] [] [OStr (lit "b"); OStr (lit "other.txt")]); [left; indirect | |].
  - apply (nb E1 att att_p _ [OStr (lit "a"); ref 4] [] [] []); [left; direct | right; split; [missing | reflexivity] | constructor].
  - apply (ni_direct E1 att att_p _ [] [(lit "Names", OArr [OStr (lit "b"); OStr (lit "other.txt")])] [] [OStr (lit "b"); OStr (lit "other.txt")] [] []); [discriminate | left; direct | |].
    + apply (nb E1 att att_p _ [OStr (lit "b"); OStr (lit "other.txt")] [] [] []); [left; direct | right; split; [missing | reflexivity] | constructor].
    + constructor.
Qed.
Lemma fs4_attached : attached E1 att att_p names1 fs4.
Proof. eapply at_tree; [apply prs_here | left; reflexivity | indirect]. Qed.
Ltac plain_fs := let T := fresh in intros T; let v := fresh in let V := fresh in destruct T as (v & V & _); inversion V.
Lemma fs4_carries : carries E1 att att_p fs4 (lit "a.txt") (lit "abc").
Proof.
  split; [plain_fs |]. exists [(lit "F", ref 5)]. split; [direct |]. split; [| left; direct].
  exists 5, 0, {| inum := 5; igen := 0; ival := ODict []; istream := Some (lit "abc") |}. split; [reflexivity |]. split; [fetch9 | reflexivity].
Qed.
Definition abc_sum : bytes := lit "900150983cd24fb0d6963f7d28e17f72".
Lemma C66_ex : order_ok OD1 /\ s_input S4 = Some att /\ parse E1 OD1 20 S4 [] = (att_ops, Ok PNone) /\
  load 20 E1 (o_objects OD1) att [] (new_parser att) = Ok (None, att_p) /\ offsets_ok (pxref att_p) /\
  of_document E1 att att_p names1 /\ attached E1 att att_p names1 fs4 /\ carries E1 att att_p fs4 (lit "a.txt") (lit "abc") /\
  In (OpEv (EDump abc_sum (lit "abc"))) att_ops.
Proof.
  split; [apply OD1_ok |]. split; [reflexivity |]. split; [apply att_parse |]. split; [apply att_load |]. split; [apply att_offsets |].
  split; [apply names1_here |]. split; [apply fs4_attached |]. split; [apply fs4_carries |]. vm_compute. tauto.
Qed.
Definition fs9 : dict := [(lit "F", OStr (lit "b.txt")); (lit "EF", ODict [(lit "F", ref 10)])].
Definition annot8 : dict := [(lit "Subtype", OName (lit "FileAttachment")); (lit "FS", ref 9)].
Lemma attachments_refuted : exists E OD fuel S pw ops file p h fs name data, order_ok OD /\ s_input S = Some file /\ parse E OD fuel S pw = (ops, Ok PNone) /\
  load fuel E (o_objects OD) file pw (new_parser file) = Ok (None, p) /\ offsets_ok (pxref p) /\ of_document E file p h /\
  typed E file p is_name (entry h (lit "Subtype")) (lit "FileAttachment") /\ typed E file p is_dict (entry h (lit "FS")) fs /\ carries E file p fs name data /\
  (forall x, ~ In (OpEv (EDump x data)) ops).
Proof.
  exists E1, OD1, 20%nat, S4, [], att_ops, att, att_p, annot8, fs9, (lit "b.txt"), (lit "xyz").
  split; [apply OD1_ok |]. split; [reflexivity |]. split; [apply att_parse |]. split; [apply att_load |]. split; [apply att_offsets |].
  split; [docd 8 annot8; apply hd_here |]. split; [direct |]. split; [indirect |]. split.
  { split; [plain_fs |]. exists [(lit "F", ref 10)]. split; [direct |]. split; [| left; direct].
    exists 10, 0, {| inum := 10; igen := 0; ival := ODict []; istream := Some (lit "xyz") |}. split; [reflexivity |]. split; [fetch9 | reflexivity]. }
  intros x H. unfold att_ops in H. remember (fst (parse E1 OD1 20 S4 [])) as l eqn:Q. vm_compute in Q. subst l.
  repeat (destruct H as [H | H]; [try discriminate H; vm_compute in H; discriminate H |]). exact H.
Qed.
Definition form6 : dict := [(lit "XFA", OArr [OStr (lit "x"); ref 5; OStr (lit "y"); ref 10])].
Lemma C67_ex : of_document E1 att att_p form6 /\ form_of E1 att att_p form6 (lit "abcxyz").
Proof.
  split; [docd 6 form6; apply hd_here |]. eapply fm_array; [reflexivity |].
  apply jn_other; [discriminate |]. apply (jn_stream E1 att att_p _ _ (lit "abc") (lit "xyz")).
  { exists 5, 0, {| inum := 5; igen := 0; ival := ODict []; istream := Some (lit "abc") |}. split; [reflexivity |]. split; [fetch9 | reflexivity]. }
  apply jn_other; [discriminate |]. apply (jn_stream E1 att att_p _ _ (lit "xyz") []); [| constructor].
  exists 10, 0, {| inum := 10; igen := 0; ival := ODict []; istream := Some (lit "xyz") |}. split; [reflexivity |]. split; [fetch9 | reflexivity].
Qed.
Definition url7 : dict := [(lit "FS", OStr (lit "URL")); (lit "F", OStr (lit "http://f"))].
Definition act7 : dict := [(lit "S", OName (lit "GoToR")); (lit "F", ODict url7)].
Lemma url7_attached : attached E1 att att_p [(lit "A", ODict act7)] url7.
Proof. apply (at_action E1 att att_p _ act7); [apply ac_a; direct | apply fo_f; direct]. Qed.
Lemma C68_ex : of_document E1 att att_p names1 /\ listed_url E1 att att_p names1 (lit "http://k") /\
  of_document E1 att att_p [(lit "A", ODict act7)] /\ listed_url E1 att att_p [(lit "A", ODict act7)] (lit "http://f").
Proof.
  split; [apply names1_here |]. split.
  { apply (lu_tree E1 att att_p names1 [(OStr (lit "http://k"), ONum (num_of_Z 1))] (OStr (lit "http://k")) (ONum (num_of_Z 1))); [| left; reflexivity | direct].
    exists [(lit "Names", OArr [OStr (lit "http://k"); ONum (num_of_Z 1)])], []. split; [direct |]. split; [| constructor].
    apply (nb E1 att att_p _ [OStr (lit "http://k"); ONum (num_of_Z 1)] [] [] []); [left; direct | right; split; [missing | reflexivity] | constructor]. }
  split; [docd 7 [(lit "A", ODict act7)]; apply hd_here |]. apply (lu_file E1 att att_p _ url7); [apply url7_attached | direct | direct].
Qed.
Definition url11 : dict := [(lit "FS", OName (lit "URL")); (lit "F", OStr (lit "http://n"))].
Definition act11 : dict := [(lit "S", OName (lit "GoToR")); (lit "F", ODict url11)].
Lemma urls_refuted : exists E OD fuel S pw ops file p h fs u, order_ok OD /\ s_input S = Some file /\ parse E OD fuel S pw = (ops, Ok PNone) /\
  load fuel E (o_objects OD) file pw (new_parser file) = Ok (None, p) /\ offsets_ok (pxref p) /\ of_document E file p h /\
  attached E file p h fs /\ typed E file p is_name (entry fs (lit "FS")) (lit "URL") /\ typed E file p is_string (entry fs (lit "F")) u /\
  ~ In (OpEv (EWrite FURLs (u ++ [x0a]))) ops.
Proof.
  exists E1, OD1, 20%nat, S4, [], att_ops, att, att_p, [(lit "A", ODict act11)], url11, (lit "http://n").
  split; [apply OD1_ok |]. split; [reflexivity |]. split; [apply att_parse |]. split; [apply att_load |]. split; [apply att_offsets |].
  split; [docd 11 [(lit "A", ODict act11)]; apply hd_here |]. split; [apply (at_action E1 att att_p _ act11); [apply ac_a; direct | apply fo_f; direct] |].
  split; [direct |]. split; [direct |]. vm_compute. intros H. repeat (destruct H as [H | H]; [discriminate |]). exact H.
Qed.
Definition fs12 : dict := [(lit "F", OStr (lit "doc.pdf")); (lit "P", OStr (lit "x"))].
Definition act12 : dict := [(lit "S", OName (lit "GoToR")); (lit "F", ODict fs12)].
Lemma C69_ex : of_document E1 att att_p [(lit "A", ODict act12)] /\ outside E1 att att_p [(lit "A", ODict act12)] (lit "doc.pdf") /\
  of_document E1 att att_p names1 /\ outside E1 att att_p names1 (lit "other.txt").
Proof.
  split; [docd 12 [(lit "A", ODict act12)]; apply hd_here |]. split.
  { apply (os_file E1 att att_p _ fs12); [apply (at_action E1 att att_p _ act12); [apply ac_a; direct | apply fo_f; direct] |].
    split; [direct |]. split; [intros u (v & V & _); inversion V | missing]. }
  split; [apply names1_here |]. eapply os_tree; [apply prs_here | right; left; reflexivity | direct].
Qed.

(** ** A file without any launch action *)
Definition gotor : bytes := lit "1 0 obj<</A<</S/GoToR/F<</F(doc.pdf)/P(x)>>>>>> endobj ".
Definition S5 : sys := mksys (Some gotor) (fun _ => true) StatNotExist.
Definition gotor_p : pst := match load 20 E1 (fun l => l) gotor [] (new_parser gotor) with Ok (_, p) => p | _ => nothing end.
Definition gotor_d : dict := [(lit "A", ODict act12)].
Lemma gotor_offsets : offsets_ok (pxref gotor_p).
Proof.
  intros n e H T. unfold xget in H. remember (pxref gotor_p) as x eqn:Q. vm_compute in Q. subst x. cbn [mget] in H.
  repeat match type of H with (if ?c then _ else _) = _ => destruct c; [injection H as <-; cbn; lia|] end. discriminate.
Qed.
Lemma gotor_only : forall n o, in_use gotor_p n -> fetched E1 gotor gotor_p n o -> o = plain 1 (ODict gotor_d).
Proof.
  intros n o (e & X & T) F. unfold xget in X. remember (pxref gotor_p) as x eqn:Q. vm_compute in Q. subst x. cbn [mget] in X.
  destruct (Z.eqb n 1) eqn:B; [| discriminate]. apply Z.eqb_eq in B. subst n.
  eapply fetched_det; [exact F |]. exists 9%nat. eexists. vm_compute. reflexivity.
Qed.
Ltac nope V := inversion V; subst; discriminate.
Lemma holds_inv : forall o h, holds o h -> match o with
  | ODict d => h = d \/ exists k x, In (k, x) d /\ holds x h
  | OArr l => exists x, In x l /\ holds x h
  | _ => False end.
Proof. intros o h H. destruct H; eauto. Qed.
Lemma gotor_holds : forall h, holds (ODict gotor_d) h -> h = gotor_d \/ h = act12 \/ h = fs12.
Proof.
  intros h H. apply holds_inv in H. destruct H as [-> | (k & x & I & H)]; [auto |]. destruct I as [I | []]. injection I as <- <-.
  apply holds_inv in H. destruct H as [-> | (k & x & I & H)]; [auto |]. destruct I as [I | [I | []]]; injection I as <- <-; [apply holds_inv in H; destruct H |].
  apply holds_inv in H. destruct H as [-> | (k & x & I & H)]; [auto |]. destruct I as [I | [I | []]]; injection I as <- <-; apply holds_inv in H; destruct H.
Qed.
Lemma typed_nothing : forall E file p A (is : obj -> A -> Prop) a, ~ typed E file p is None a.
Proof. intros E file p A is a (v & V & _). inversion V. Qed.
Lemma typed_direct : forall E file p A (is : obj -> A -> Prop) x a, (forall n g, x <> ORef n g) -> typed E file p is (Some x) a -> is x a.
Proof. intros E file p A is x a N (v & V & H). inversion V; subst; [exact H | exfalso; eapply N; reflexivity]. Qed.
Ltac entry_of T := match type of T with typed _ _ _ _ ?x _ => let y := eval vm_compute in x in change x with y in T end.
(** the entry is not there, or is of another type *)
Ltac typed_none T := entry_of T; first [exact (typed_nothing _ _ _ _ _ _ T) | apply typed_direct in T; [discriminate T | discriminate]].
Lemma gotor_action : forall h a, holds (ODict gotor_d) h -> action_of E1 gotor gotor_p h a -> a = act12.
Proof.
  intros h a H A. destruct (gotor_holds _ H) as [-> | [-> | ->]]; destruct A as [a T | a T | aa k a T I T']; try (exfalso; typed_none T).
  entry_of T. apply typed_direct in T; [injection T as <-; reflexivity | discriminate].
Qed.
Lemma commands_source_refuted : exists E OD fuel S pw file p c, order_ok OD /\ s_input S = Some file /\
  load fuel E (o_objects OD) file pw (new_parser file) = Ok (None, p) /\ offsets_ok (pxref p) /\
  In (OpEv (EWrite FCommands (c ++ [x0a]))) (fst (parse E OD fuel S pw)) /\
  forall h a, of_document E file p h -> action_of E file p h a -> ~ launch E file p a.
Proof.
  exists E1, OD1, 20%nat, S5, [], gotor, gotor_p, (lit "doc.pdf x"). split; [apply OD1_ok |]. split; [reflexivity |].
  split; [vm_compute; reflexivity |]. split; [apply gotor_offsets |]. split; [vm_compute; tauto |].
  intros h a (n & o & d & U & F & V & H) A L. rewrite (gotor_only n o U F) in V. cbn in V. injection V as <-.
  rewrite (gotor_action h a H A) in L. unfold launch in L. typed_none L.
Qed.
Definition fs13 : dict := [(lit "F", OStr (lit "two"))].
Definition next13 : dict := [(lit "S", OName (lit "Launch")); (lit "F", ODict fs13)].
Definition act13 : dict := [(lit "S", OName (lit "Launch")); (lit "F", ODict [(lit "F", OStr (lit "one"))]); (lit "Next", ODict next13)].
(** the second of two chained launch actions *)
Lemma next_refuted : exists E OD fuel S pw ops file p h a b c, order_ok OD /\ s_input S = Some file /\ parse E OD fuel S pw = (ops, Ok PNone) /\
  load fuel E (o_objects OD) file pw (new_parser file) = Ok (None, p) /\ offsets_ok (pxref p) /\
  of_document E file p h /\ action_of E file p h a /\ typed E file p is_dict (entry a (lit "Next")) b /\ launch E file p b /\
  command_in_spec E file p b c /\ ~ In (OpEv (EWrite FCommands (c ++ [x0a]))) ops.
Proof.
  exists E1, OD1, 20%nat, S4, [], att_ops, att, att_p, [(lit "A", ODict act13)], act13, next13, (lit "two ").
  split; [apply OD1_ok |]. split; [reflexivity |]. split; [apply att_parse |]. split; [apply att_load |]. split; [apply att_offsets |].
  split; [docd 13 [(lit "A", ODict act13)]; apply hd_here |]. split; [apply ac_a; direct |]. split; [direct |]. split; [direct |].
  split.
  { apply (cs_file E1 att att_p next13 fs13 (lit "two") []); [direct | | right; split; [missing | reflexivity]].
    split; [direct |]. split; [| missing]. intros u (v & V & _). inversion V. }
  vm_compute. intros H. repeat (destruct H as [H | H]; [discriminate |]). exact H.
Qed.

(** ** Lines with their sources *)
Lemma C62_ex : order_ok OD1 /\ s_input S4 = Some att /\ load 20 E1 (o_objects OD1) att [] (new_parser att) = Ok (None, att_p) /\ offsets_ok (pxref att_p) /\
  In (OpEv (EWrite FURLs (lit "http://u" ++ [x0a]))) (fst (parse E1 OD1 20 S4 [])) /\
  In (OpEv (EWrite FJavascript (lit "go" ++ [x0a]))) (fst (parse E1 OD1 20 S4 [])) /\
  In (OpEv (EWrite FCommands (lit "one " ++ [x0a]))) (fst (parse E1 OD1 20 S4 [])) /\
  In (OpEv (EDump abc_sum (lit "abc"))) (fst (parse E1 OD1 20 S4 [])).
Proof.
  split; [apply OD1_ok |]. split; [reflexivity |]. split; [apply att_load |]. split; [apply att_offsets |].
  split; [vm_compute; tauto |]. split; [vm_compute; tauto |]. split; vm_compute; tauto.
Qed.
