(** LengthEx.v -- witnesses for PropLength.v. *)
From Verif Require Import Base BaseP Msg Reader ReaderP Num NumP Lexer Obj ReadObj Bits Filters Regex RegexP Env Getters Crypt Stream GetObj Load Tree Output Render Parse SpecLex SpecLexP SpecObj SpecRead
  SpecLook ReadEx SpecFetch FetchP FetchEx SpecStream StreamEx SpecScan XrefEx TextEx SpecRecover RecoverP RecoverEx SpecOut TreeEx RawP LoadInvP OutEx SpecLength.
From Coq Require Import Strings.String.

(** An embedded file (3) with the word "endstream" in it, and a stream (4) with
    its Length in another object. *)
Definition sized : bytes := lit "1 0 obj<</Names<</EmbeddedFiles<</Names[(a)2 0 R]>>>>>> endobj 2 0 obj<</F(a.txt)/EF<</F 3 0 R>>>> endobj " ++
  lit "3 0 obj<</Length 17>>stream" ++ x0a :: lit "abc endstream xyz" ++ x0a :: lit "endstream endobj 4 0 obj<</Length 5 0 R>>stream" ++ x0d :: x0a :: lit "xyz" ++ x0a :: lit "endstream endobj 5 0 obj 3 endobj ".
Definition S12 : sys := mksys (Some sized) (fun _ => true) StatNotExist.
Definition ops12 : list op := fst (parse E1 OD1 20 S12 []).
Definition p12 : pst := match load 20 E1 (o_objects OD1) sized [] (new_parser sized) with Ok (_, p) => p | _ => nothing end.
Definition d12 : dict := [(lit "Length", ONum (num_of_Z 17))].
Definition d13 : dict := [(lit "Length", ORef 5 0)].
Lemma sized_load : load 20 E1 (o_objects OD1) sized [] (new_parser sized) = Ok (None, p12).
Proof. vm_compute. reflexivity. Qed.
Lemma sized_parse : parse E1 OD1 20 S12 [] = (ops12, Ok PNone).
Proof. vm_compute. reflexivity. Qed.
Lemma dict12 : obj_text (lit "<</Length 17>>") (ODict d12).
Proof.
  apply (ot_dict (lit "/Length 17") [(lit "Length", ONum (num_of_Z 17))]); [| constructor; [intros [] | constructor]].
  apply (cons0 (lit "/Length")); [nm | | right; delim_end]. apply (it_cons (lit " ") (lit "17") (ONum (num_of_Z 17)) [] []); [gaps | int_obj | apply nil0 | right; apply end0].
Qed.
Lemma dict13 : obj_text (lit "<</Length 5 0 R>>") (ODict d13).
Proof.
  apply (ot_dict (lit "/Length 5 0 R") [(lit "Length", ORef 5 0)]); [| constructor; [intros [] | constructor]].
  apply (cons0 (lit "/Length")); [nm | | right; delim_end]. apply (it_cons (lit " ") (lit "5 0 R") (ORef 5 0) [] []); [gaps | | apply nil0 | right; apply end0].
  apply (ot_ref (lit "5") 5 (lit " ") (lit "0") 0 (lit " ")); [nat_lit | lia | gaps | discriminate | nat_lit | lia | gaps | discriminate].
Qed.
Lemma usual12 : usual sized p12 106 3 0 d12.
Proof.
  split; [lia | lia | lia | last_nd | | discriminate | vm_compute; reflexivity | eexists; split; [vm_compute; reflexivity | repeat split; reflexivity]].
  intros x (d1 & d2 & Q & _). destruct d1 as [| y d1]; [discriminate | destruct d1; discriminate].
Qed.
Lemma usual13 : usual sized p12 169 4 0 d13.
Proof.
  split; [lia | lia | lia | last_nd | | discriminate | vm_compute; reflexivity | eexists; split; [vm_compute; reflexivity | repeat split; reflexivity]].
  intros x (d1 & d2 & Q & _). destruct d1 as [| y d1]; [discriminate | destruct d1; discriminate].
Qed.
Definition head12 : bytes := lit "3 0 obj<</Length 17>>stream" ++ [x0a].
Definition head13 : bytes := lit "4 0 obj<</Length 5 0 R>>stream" ++ [x0d; x0a].
Lemma measured12 : measured E1 sized p12 106 3 0 d12 head12 (lit "abc endstream xyz") [x0a].
Proof.
  apply (ms_intro E1 sized p12 106 3 0 d12 (lit "3 0 obj") [] (lit "<</Length 17>>") [] [x0a] (lit "abc endstream xyz") [x0a] (zdrop 161 sized));
    [head "3"%string 3 | apply gap_nil | exact dict12 | apply gap_nil | left; reflexivity | direct | apply se_lf | vm_compute; reflexivity].
Qed.
Lemma measured13 : measured E1 sized p12 169 4 0 d13 head13 (lit "xyz") [x0a].
Proof.
  apply (ms_intro E1 sized p12 169 4 0 d13 (lit "4 0 obj") [] (lit "<</Length 5 0 R>>") [] [x0d; x0a] (lit "xyz") [x0a] (zdrop 214 sized));
    [head "4"%string 4 | apply gap_nil | exact dict13 | apply gap_nil | right; reflexivity | eexists; split; [apply v_ref; fetch9 | reflexivity] | apply se_lf | vm_compute; reflexivity].
Qed.
Lemma bare_data : forall d k v data, d = [(k, v)] -> k <> lit "Filter" -> k <> lit "DecodeParms" -> unfiltered E1 d data (Some data).
Proof.
  intros d k v data -> F P. exists [], []. split; [apply fo_none; intros [Q | []]; exact (F Q) |]. split; [apply po_none; intros [Q | []]; exact (P Q) |]. split; [discriminate | apply dc_nil].
Qed.
Lemma sized_reads : reads sized p12.
Proof. exact (proj1 (tidy_load sized 20 E1 (o_objects OD1) [] _ _ _ (new_sound sized) sized_load)). Qed.
Lemma length_refuted : exists E OD fuel S pw ops file p i n g d head raw eol, order_ok OD /\ s_input S = Some file /\ parse E OD fuel S pw = (ops, Ok PNone) /\
  load fuel E (o_objects OD) file pw (new_parser file) = Ok (None, p) /\ measured E file p i n g d head raw eol /\ usual file p i n g d /\ unfiltered E d raw (Some raw) /\
  fetched E file p n {| inum := n; igen := g; ival := ODict d; istream := Some (lit "abc ") |} /\ raw = lit "abc endstream xyz" /\
  (exists x, In (OpEv (EDump x (lit "abc "))) ops) /\ (forall x, ~ In (OpEv (EDump x raw)) ops).
Proof.
  exists E1, OD1, 20%nat, S12, [], ops12, sized, p12, 106, 3, 0, d12, head12, (lit "abc endstream xyz"), [x0a].
  split; [apply OD1_ok |]. split; [reflexivity |]. split; [exact sized_parse |]. split; [exact sized_load |]. split; [exact measured12 |]. split; [exact usual12 |].
  split; [eapply bare_data; [reflexivity | discriminate | discriminate] |]. split; [fetch9 |]. split; [reflexivity |]. split.
  - eexists. vm_compute. do 40 (first [left; reflexivity | right]).
  - intros x H. unfold ops12 in H. remember (fst (parse E1 OD1 20 S12 [])) as l eqn:Q. vm_compute in Q. subst l.
    repeat (destruct H as [H | H]; [try discriminate H; vm_compute in H; discriminate H |]). exact H.
Qed.
Lemma C122_ex : reads sized p12 /\ measured E1 sized p12 169 4 0 d13 head13 (lit "xyz") [x0a] /\ usual sized p12 169 4 0 d13 /\ zlen head13 + 9 <= bufsize /\
  ~ occurs (lit "endstream") (lit "xyz") /\ eol_after (lit "xyz") [x0a] /\ unfiltered E1 d13 (lit "xyz") (Some (lit "xyz")).
Proof.
  split; [exact sized_reads |]. split; [exact measured13 |]. split; [exact usual13 |]. split; [vm_compute; discriminate |]. split; [apply occurs_check; vm_compute; reflexivity |].
  split; [apply ea_lf; last_byte | eapply bare_data; [reflexivity | discriminate | discriminate]].
Qed.
Lemma C122_cut_ex : reads sized p12 /\ measured E1 sized p12 106 3 0 d12 head12 (lit "abc endstream xyz") [x0a] /\ usual sized p12 106 3 0 d12 /\ zlen head12 + 9 <= bufsize /\
  lit "abc endstream xyz" = lit "abc " ++ [] ++ lit "endstream" ++ lit " xyz" /\ ~ occurs (lit "endstream") (lit "abc ") /\ eol_after (lit "abc ") [] /\
  unfiltered E1 d12 (lit "abc ") (Some (lit "abc ")).
Proof.
  split; [exact sized_reads |]. split; [exact measured12 |]. split; [exact usual12 |]. split; [vm_compute; discriminate |]. split; [reflexivity |]. split; [apply occurs_check; vm_compute; reflexivity |].
  split; [| eapply bare_data; [reflexivity | discriminate | discriminate]].
  apply ea_none. intros c b Q. assert (b = x20) as ->; [| split; discriminate]. change (lit "abc ") with (lit "abc" ++ [x20]) in Q. apply app_inj_tail in Q. destruct Q as [_ Q]. symmetry. exact Q.
Qed.
