(** ExactEx.v -- witnesses for PropExact.v. *)
From Verif Require Import Base BaseP Msg Reader ReaderP Num Lexer Obj ReadObj Env Getters Crypt GetObj Load Tree Output Parse SpecRead SpecLook SpecTree
  FetchP LookP SecurityP FetchEx Md5 SpecFetch SpecOut StreamEx XrefEx TreeEx RawP ExtractP OutEx SpecSource SourceP AttachP SourceEx
  SpecText SpecPage PageP SpecPages PagesP PagesEx SpecExact.
From Coq Require Import Strings.String Sorting.Permutation.

Local Definition strm (s : string) : bytes := lit "<<>>stream" ++ x0a :: lit s ++ x0a :: lit "endstream".
(** An opening action that is a script (1, 6) and occurs again among the
    additional actions, another one with a file; a tree of embedded files and
    one of addresses (3); a link inside of an array (7); a form (8); a file
    specification that is an address (9). *)
Definition full : bytes :=
  lit "1 0 obj<</Names 3 0 R/OpenAction 6 0 R/AA<</WC<</S/Launch/F(calc)>>/WS 6 0 R>>>> endobj " ++
  lit "3 0 obj<</EmbeddedFiles<</Names[(a)4 0 R(b)(o.txt)]>>/URLS<</Names[(http://k)1]>>>> endobj " ++
  lit "4 0 obj<</F(a.txt)/EF<</F 5 0 R>>>> endobj " ++
  lit "5 0 obj" ++ strm "abc" ++ lit " endobj " ++
  lit "6 0 obj<</S/JavaScript/JS(go)>> endobj " ++
  lit "7 0 obj<</Annots[<</A<</S/URI/URI(http://u)>>>>(x)]>> endobj " ++
  lit "8 0 obj<</XFA[(x)5 0 R]>> endobj " ++
  lit "9 0 obj<</A<</S/GoToR/F<</FS(URL)/F(http://f)>>/Win<</F(w.exe)>>>>>> endobj ".
Definition S9 : sys := mksys (Some full) (fun _ => true) StatNotExist.
Definition full_p : pst := match load 20 E1 (fun l => l) full [] (new_parser full) with Ok (_, p) => p | _ => nothing end.
Definition full_ops : list op := fst (parse E1 OD1 20 S9 []).
Lemma full_load : load 20 E1 (o_objects OD1) full [] (new_parser full) = Ok (None, full_p).
Proof. vm_compute. reflexivity. Qed.
Lemma full_parse : parse E1 OD1 20 S9 [] = (full_ops, Ok PNone).
Proof. vm_compute. reflexivity. Qed.
Lemma full_offsets : offsets_ok (pxref full_p).
Proof.
  intros n e H T. unfold xget in H. remember (pxref full_p) as x eqn:Q. vm_compute in Q. subst x. cbn [mget] in H.
  repeat match type of H with (if ?c then _ else _) = _ => destruct c; [injection H as <-; cbn; lia|] end. discriminate.
Qed.
Definition str (s : string) : obj := OStr (lit s).
Definition nam (s : string) : obj := OName (lit s).
Definition dic (l : list (string * obj)) : obj := ODict (map (fun kv => (lit (fst kv), snd kv)) l).
Definition full_objs : list (Z * iobj) :=
  [(1, plain 1 (dic [("Names", ref 3); ("OpenAction", ref 6); ("AA", dic [("WC", dic [("S", nam "Launch"); ("F", str "calc")]); ("WS", ref 6)])]));
   (3, plain 3 (dic [("EmbeddedFiles", dic [("Names", OArr [str "a"; ref 4; str "b"; str "o.txt"])]); ("URLS", dic [("Names", OArr [str "http://k"; ONum (num_of_Z 1)])])]));
   (4, plain 4 (dic [("F", str "a.txt"); ("EF", dic [("F", ref 5)])]));
   (5, strobj 5 (lit "abc"));
   (6, plain 6 (dic [("S", nam "JavaScript"); ("JS", str "go")]));
   (7, plain 7 (dic [("Annots", OArr [dic [("A", dic [("S", nam "URI"); ("URI", str "http://u")])]; str "x"])]));
   (8, plain 8 (dic [("XFA", OArr [str "x"; ref 5])]));
   (9, plain 9 (dic [("A", dic [("S", nam "GoToR"); ("F", dic [("FS", str "URL"); ("F", str "http://f")]); ("Win", dic [("F", str "w.exe")])])]))]%string.
Lemma full_all : all_objects E1 full full_p full_objs.
Proof.
  split; [repeat constructor; cbn; intuition lia |]. split.
  - intros n. split.
    + intros I. cbn in I. repeat (destruct I as [<- | I]; [used |]). destruct I.
    + intros (e & X & T). unfold xget in X. remember (pxref full_p) as x eqn:Q. vm_compute in Q. subst x. cbn [mget] in X.
      repeat match type of X with (if Z.eqb n ?m then _ else _) = _ => destruct (Z.eqb_spec n m) as [-> | _]; [cbn; tauto |] end. discriminate.
  - repeat (apply Forall_cons; [cbn [fst snd]; fetch9 |]). apply Forall_nil.
Qed.
Ltac un := first [missing | right; eexists; split; [apply v_direct; discriminate | let H := fresh in intros ? H; discriminate H]
  | right; eexists; split; [apply v_ref; fetch9 | let H := fresh in intros ? H; discriminate H]].
Ltac ty := first [direct | indirect].
Ltac dicts := match goal with |- exists lss, Forall2 _ ?l lss /\ _ => let y := eval vm_compute in l in change l with y end.
Lemma full_scripts : exists lss, Forall2 (scripts E1 full full_p) (dictionaries full_objs) lss /\ List.concat lss = [lit "go"].
Proof.
  dicts. eexists. split.
  - repeat (apply Forall2_cons; [first [apply ss_none; [un | discriminate] | apply ss_some; apply sl_string; ty] |]). apply Forall2_nil.
  - reflexivity.
Qed.

Ltac names0 := apply on_none; un.
(** a name tree that is a single node *)
Ltac names1 prs l := apply (on_tree E1 full full_p _ _ _ prs); [eexists; exists []; split; [ty |]; split; [eapply (nb E1 full full_p _ l [] [] []); [left; ty | right; split; [un | reflexivity] | constructor] | constructor] |].
Ltac entry0 := apply oe_none; un.
Ltac entry1 t := eapply oe_some; [ty | t].
Ltac ent t := first [entry0 | entry1 t].
Ltac not_url := let T := fresh in intros T; let v := fresh in let V := fresh in let H := fresh in destruct T as (v & V & H); inversion V; subst; discriminate H.
Ltac file_u := first [apply fu_none; not_url | apply fu_url; [ty | ent reflexivity]].
Ltac act_u := do 2 eexists; split; [ent file_u |]; split; [ent file_u | reflexivity].
Ltac each t := eexists; split; [repeat (apply Forall2_cons; [t |]); apply Forall2_nil | reflexivity].
Ltac acts_of t := do 3 eexists; split; [ent t |]; split; [ent t |]; split; [first [entry0 | eapply oe_some; [ty | each ltac:(ent t)]] | reflexivity].
Ltac no_uri := let u := fresh in let T := fresh in intros u T; inversion T as [? T' | ? ? T' T'']; subst; destruct T' as (? & V' & H'); inversion V'; subst; discriminate H'.
Lemma full_urls : exists lss, Forall2 (urls E1 full full_p) (dictionaries full_objs) lss /\ List.concat lss = [lit "http://k"; lit "http://u"; lit "http://f"].
Proof.
  dicts. eexists. split.
  - repeat (apply Forall2_cons; [do 4 eexists; split; [acts_of act_u |]; split; [first [names0 | names1 [(str "a", ref 4); (str "b", str "o.txt")] [str "a"; ref 4; str "b"; str "o.txt"]; each ltac:(ent file_u)] |]; split;
      [first [apply ui_none; no_uri | apply ui_some; apply ur_string; ty] |]; split;
      [first [names0 | names1 [(str "http://k", ONum (num_of_Z 1))] [str "http://k"; ONum (num_of_Z 1)]; each ltac:(ent reflexivity)] | reflexivity] |]).
    apply Forall2_nil.
  - reflexivity.
Qed.
Ltac file_i := first [apply fi_url; ty
  | eapply fi_inside; [not_url | ty | first [left; ty | right; split; [un | reflexivity]] | left; refd 5 (lit "abc")]
  | apply fi_outside; split; [ty |]; split; [intros u (v & V & H) Q; inversion V; subst; discriminate H | un]
  | apply fi_none; [not_url | un | un]].
Ltac spec_i := do 2 eexists; split; [ent reflexivity |]; split; [ent file_i | reflexivity].
Ltac act_i := do 2 eexists; split; [spec_i |]; split; [ent file_i | reflexivity].
Lemma full_joined : joined E1 full full_p [str "x"; ref 5] (lit "abc").
Proof. apply jn_other; [discriminate |]. apply (jn_stream E1 full full_p _ _ (lit "abc") []); [refd 5 (lit "abc") | constructor]. Qed.
Lemma full_items : exists lss, Forall2 (items_of E1 full full_p) (dictionaries full_objs) lss /\
  List.concat lss = [Outside (lit "calc"); Inside (lit "a.txt") (lit "abc"); Outside (lit "o.txt"); Inside (lit "form.xml") (lit "abc"); Outside (lit "w.exe")].
Proof.
  dicts. eexists. split.
  - repeat (apply Forall2_cons; [do 3 eexists; split; [acts_of act_i |]; split; [first [apply fm_none; [discriminate | un] | eapply fm_array; [discriminate | ty | exact full_joined]] |]; split;
      [first [names0 | names1 [(str "a", ref 4); (str "b", str "o.txt")] [str "a"; ref 4; str "b"; str "o.txt"]; each spec_i] | reflexivity] |]).
    apply Forall2_nil.
  - reflexivity.
Qed.
Lemma C99_ex : order_ok OD1 /\ s_input S9 = Some full /\ parse E1 OD1 20 S9 [] = (full_ops, Ok PNone) /\
  load 20 E1 (o_objects OD1) full [] (new_parser full) = Ok (None, full_p) /\ offsets_ok (pxref full_p) /\ all_objects E1 full full_p full_objs /\
  (exists lss, Forall2 (scripts E1 full full_p) (dictionaries full_objs) lss /\ List.concat lss = [lit "go"]) /\
  (exists lss, Forall2 (urls E1 full full_p) (dictionaries full_objs) lss /\ List.concat lss = [lit "http://k"; lit "http://u"; lit "http://f"]) /\
  (exists lss, Forall2 (items_of E1 full full_p) (dictionaries full_objs) lss /\
    List.concat lss = [Outside (lit "calc"); Inside (lit "a.txt") (lit "abc"); Outside (lit "o.txt"); Inside (lit "form.xml") (lit "abc"); Outside (lit "w.exe")]).
Proof.
  split; [apply OD1_ok |]. split; [reflexivity |]. split; [apply full_parse |]. split; [apply full_load |]. split; [apply full_offsets |]. split; [apply full_all |].
  split; [apply full_scripts |]. split; [apply full_urls | apply full_items].
Qed.

(** ** text *)
Definition book_objs : list (Z * iobj) :=
  [(1, plain 1 (dic [("Pages", ref 2)])); (2, plain 2 (dic [("Kids", OArr [ref 3; ref 6])]));
   (3, plain 3 (dic [("Resources", dic [("Font", dic [("F1", ref 4)])]); ("Contents", ref 7)])); (4, plain 4 (dic [("ToUnicode", ref 5)]));
   (5, strobj 5 cm1); (6, plain 6 (dic [("Contents", OArr [ref 7; ref 8])])); (7, strobj 7 (lit "BT/F1 1 Tf<01>Tj ET")); (8, strobj 8 (lit "BT(x)Tj ET"))]%string.
Lemma book_all : all_objects E1 book book_p book_objs.
Proof.
  split; [repeat constructor; cbn; intuition lia |]. split.
  - intros n. split.
    + intros I. cbn in I. repeat (destruct I as [<- | I]; [used |]). destruct I.
    + intros (e & X & T). unfold xget in X. remember (pxref book_p) as x eqn:Q. vm_compute in Q. subst x. cbn [mget] in X.
      repeat match type of X with (if Z.eqb n ?m then _ else _) = _ => destruct (Z.eqb_spec n m) as [-> | _]; [cbn; tauto |] end. discriminate.
  - repeat (apply Forall_cons; [cbn [fst snd]; fetch9 |]). apply Forall_nil.
Qed.
Lemma C99_text_ex : order_ok OD1 /\ s_input S6 = Some book /\ parse E1 OD1 30 S6 [] = (book_ops, Ok PNone) /\
  load 30 E1 (o_objects OD1) book [] (new_parser book) = Ok (None, book_p) /\ offsets_ok (pxref book_p) /\ all_objects E1 book book_p book_objs /\
  exists lss, Forall2 (texts E1 book book_p) (dictionaries book_objs) lss /\ List.concat lss = [lit "A"; [x01]; lit "x"].
Proof.
  split; [apply OD1_ok |]. split; [reflexivity |]. split; [apply book_parse |]. split; [apply book_load |]. split; [apply book_offsets |]. split; [apply book_all |].
  dicts. eexists. split.
  - apply Forall2_cons; [eapply tx_pages; [exact book_pages | exact book_lines] |]. repeat (apply Forall2_cons; [apply tx_none; un |]). apply Forall2_nil.
  - reflexivity.
Qed.
