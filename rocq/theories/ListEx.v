(** ListEx.v -- a list of objects with scripts, addresses, files and text
    (C100). *)
From Verif Require Import Base BaseP Msg Reader Num Obj ReadObj Env Getters GetObj Xref Load Extract Output Parse SpecFetch SpecOut SpecTree SpecSource SpecText SpecPage SpecPages SpecObj SpecStream SpecWrite SpecFollow SpecUpdate SpecCryptDoc SpecSeal
  StreamEx OutEx TotalP WriteEx UpdateEx SealEx PagesEx ExactEx SpecExact SpecList.
From Coq Require Import Strings.String.

Definition ref (n : Z) : obj := ORef n 0.
Definition o_of (n : Z) (l : list (string * obj)) : iobj := {| inum := n; igen := 0; ival := dic l; istream := None |}.
Definition s_of (n : Z) (s : string) : iobj := {| inum := n; igen := 0; ival := ODict []; istream := Some (lit s) |}.
(** 8 leads to 5 over 7, 14 and 15 lead to each other *)
Definition DL : list iobj :=
  [ o_of 1 [("Pages", ref 2); ("Names", ref 3); ("OpenAction", ref 6); ("AA", dic [("WC", dic [("S", nam "Launch"); ("F", str "calc")]); ("WS", ref 6); ("DS", ref 14)])];
    o_of 2 [("Kids", OArr [ref 10; ref 2; ref 99; ref 14]); ("Count", ONum (num_of_Z 1))];
    o_of 3 [("EmbeddedFiles", dic [("Kids", OArr [ref 12]); ("Names", OArr [str "b"; str "o.txt"])]); ("URLS", dic [("Names", OArr [str "http://k"; ONum (num_of_Z 1)])])];
    o_of 4 [("F", str "a.txt"); ("EF", dic [("F", ref 8)])];
    s_of 5 "an endobj";
    o_of 6 [("S", nam "JavaScript"); ("JS", str "go")];
    {| inum := 7; igen := 0; ival := ref 5; istream := None |};
    {| inum := 8; igen := 0; ival := ref 7; istream := None |};
    o_of 9 [("Annots", OArr [dic [("A", dic [("S", nam "URI"); ("URI", str "http://u")])]]); ("JS", ref 8); ("XFA", OArr [ref 5; ref 15; ref 8])];
    o_of 10 [("Parent", ref 2); ("Contents", OArr [ref 11; str "?"])];
    s_of 11 "BT(x)Tj ET";
    o_of 12 [("Names", OArr [str "a"; ref 4])];
    {| inum := 14; igen := 0; ival := ref 15; istream := None |};
    {| inum := 15; igen := 0; ival := ref 14; istream := None |} ]%string.
Definition trL : dict := [(lit "Root", ORef 1 0)].
Definition SL : sys := mksys (Some (w_document DL trL)) (fun _ => true) StatNotExist.
Definition SL_ops : list op := fst (parse E1 OD1 30 SL []).
Lemma DL_good : good_document DL trL.
Proof.
  assert (G : forall o, In o DL -> good_object o) by (intros o I; repeat (destruct I as [<- | I]; [cbv [o_of s_of dic ref nam str map fst snd]; good |]); destruct I).
  constructor; [| exact G | ni]. constructor.
  - intros o I. apply go_lay, G, I.
  - dist.
  - unfold trL. prt.
  - ni.
  - vm_compute. reflexivity.
Qed.
Lemma SL_run : parse E1 OD1 30 SL [] = (SL_ops, Ok PNone).
Proof. vm_compute. reflexivity. Qed.
Definition ldata : bytes := lit "an endobj".
Lemma DL_urls : doc_urls 3 (map as_written DL) = Some [lit "http://k"; lit "http://u"].
Proof. vm_compute. reflexivity. Qed.
Lemma DL_scripts : doc_scripts (map as_written DL) = [lit "go"; ldata].
Proof. vm_compute. reflexivity. Qed.
Lemma DL_items : doc_items 3 (map as_written DL) = Some [Outside (lit "calc"); Outside (lit "o.txt"); Inside (lit "a.txt") ldata; Inside (lit "form.xml") (ldata ++ ldata)].
Proof. vm_compute. reflexivity. Qed.
Lemma DL_follows : followed (map as_written DL) 8 = as_written (s_of 5 "an endobj") /\ followed (map as_written DL) 14 = null_object 14 /\ followed (map as_written DL) 99 = null_object 99.
Proof. vm_compute. auto. Qed.
Lemma DL_text : exists lss, Forall2 (l_texts (map as_written DL) 4) (l_dicts (map as_written DL)) lss /\ List.concat lss = [lit "x"].
Proof.
  eexists. split.
  - match goal with |- Forall2 _ ?l _ => let y := eval vm_compute in l in change l with y end.
    apply Forall2_cons.
    { eexists _, _. split; [vm_compute; reflexivity |]. split; [| reflexivity].
      assert (F0 : forall page, dict_or (map as_written DL) (entry (dict_or (map as_written DL) (entry page (lit "Resources"))) (lit "Font")) = [] -> l_fonts (map as_written DL) page fs0)
        by (intros page Q n; right; rewrite Q; split; [intros [] | reflexivity]).
      repeat apply Forall2_cons; try apply Forall2_nil.
      - exists fs0, []. split; [apply F0; vm_compute; reflexivity |]. split; [vm_compute; constructor | reflexivity].
      - exists fs0, [[lit "x"]]. split; [apply F0; vm_compute; reflexivity |]. split; [| reflexivity].
        match goal with |- Forall2 _ ?l _ => replace l with [lit "BT(x)Tj ET"] by (vm_compute; reflexivity) end. constructor; [apply s8_lines | constructor].
      - exists fs0, []. split; [apply F0; vm_compute; reflexivity |]. split; [vm_compute; constructor | reflexivity]. }
    repeat (apply Forall2_cons; [eexists [], []; split; [vm_compute; reflexivity |]; split; [constructor | reflexivity] |]). apply Forall2_nil.
  - reflexivity.
Qed.
Lemma C100_ex : stored E1 (w_document DL trL) [] (map as_written DL) /\ order_ok OD1 /\ s_input SL = Some (w_document DL trL) /\ parse E1 OD1 30 SL [] = (SL_ops, Ok PNone) /\
  doc_scripts (map as_written DL) = [lit "go"; ldata] /\
  doc_urls 3 (map as_written DL) = Some [lit "http://k"; lit "http://u"] /\
  doc_items 3 (map as_written DL) = Some [Outside (lit "calc"); Outside (lit "o.txt"); Inside (lit "a.txt") ldata; Inside (lit "form.xml") (ldata ++ ldata)] /\
  exists lss, Forall2 (l_texts (map as_written DL) 4) (l_dicts (map as_written DL)) lss /\ List.concat lss = [lit "x"].
Proof.
  split; [apply st_written, DL_good |]. split; [apply OD1_ok |]. split; [reflexivity |]. split; [exact SL_run |]. split; [exact DL_scripts |]. split; [exact DL_urls |]. split; [exact DL_items | exact DL_text].
Qed.
Lemma C100_ex_followed : followed (map as_written DL) 8 = as_written (s_of 5 "an endobj") /\ followed (map as_written DL) 14 = null_object 14 /\ followed (map as_written DL) 99 = null_object 99.
Proof. exact DL_follows. Qed.
Lemma C100_ex_others : stored E1 (w_updated RS) [] (map as_written (living RS)) /\ doc_urls 1 (map as_written (living RS)) = Some [lit "http://x.example/(a"] /\
  stored E1 (w_document CS trS) pwS DS /\ doc_urls 1 DS = Some [lit "http://x.example/(a"].
Proof.
  split; [apply st_updated, RS_good |]. split; [vm_compute; reflexivity |]. split; [| vm_compute; reflexivity]. eapply st_sealed; [apply C97_ex | exact sealedS].
Qed.
Lemma DL_within : forall h, within (map as_written DL) h -> In h (flat_map (fun o => dicts (ival o)) (map as_written DL)).
Proof. intros h (o & I & H). apply in_flat_map. exists o. split; [exact I | apply holds_dicts; exact H]. Qed.
Lemma C100_ex_returns : direct_kids (map as_written DL) /\ moderate_maps (map as_written DL).
Proof.
  split.
  - intros h n g H Q. apply DL_within in H. cbn in H. repeat (destruct H as [<- | H]; [vm_compute in Q; discriminate Q |]). exact H.
  - intros h n g o s H Q. apply DL_within in H. exfalso. cbn in H. repeat (destruct H as [<- | H]; [vm_compute in Q; discriminate Q |]). exact H.
Qed.
