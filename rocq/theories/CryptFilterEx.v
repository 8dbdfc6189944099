(** CryptFilterEx.v -- witnesses for C83 in PropDoc.v: documents with several
    crypt filters. *)
From Verif Require Import Base BaseP Msg Reader ReaderP Num NumP Lexer Obj ReadObj Bits Filters Regex RegexP Env Getters Crypt Rc4 Md5 Stream GetObj Xref Security Load SpecLex SpecLexP SpecObj SpecRead
  ReadEx SpecFetch FetchP FetchEx SpecStream StreamEx SpecScan SpecXref ScanP XrefP XrefEx TextEx SpecCrypt CryptP SpecSecurity SecurityP CryptEx SpecRecover RecoverP RecoverEx DocP DocEx
  SpecCryptDoc CryptDocP CryptDocEx.
From Coq Require Import Strings.String Sorting.Permutation.

(** the file key, U, and the encryption dictionary up to the names of the filters *)
Definition k4 : bytes := Eval vm_compute in file_key_of Md5.md5 4 true (lit "o") (-4) (lit "i") [] 16.
Definition u4 : bytes := Eval vm_compute in rc4_rounds 20 0 k4 (Md5.md5 (pad32 ++ lit "i")).
Definition cf4 : dict := [(lit "A", ODict [(lit "CFM", OName (lit "AESV2"))]); (lit "B", ODict [(lit "CFM", OName (lit "V2")); (lit "Length", ONum (num_of_Z 16))])].
Definition enc4 (names : dict) : dict := [(lit "Filter", OName (lit "Standard")); (lit "V", ONum (num_of_Z 4)); (lit "R", ONum (num_of_Z 4)); (lit "Length", ONum (num_of_Z 128));
  (lit "O", OStr (lit "o")); (lit "U", OStr u4); (lit "P", ONum (num_of_Z (-4))); (lit "CF", ODict cf4)] ++ names.
Definition c4 : bytes := lit "<</A<</CFM/AESV2>>/B<</CFM/V2/Length 16>>>>".
Definition i4 (names : bytes) : bytes := lit "/Filter/Standard/V 4/R 4/Length 128/O(o)/U<" ++ hex u4 ++ lit ">/P -4/CF" ++ c4 ++ names.
Definition t4 (names : bytes) : bytes := lit "<<" ++ i4 names ++ lit ">>".
Definition pr4 : params := {| pr_v := 4; pr_r := 4; pr_n := 16; pr_o := lit "o"; pr_u := u4; pr_p := -4; pr_meta := true; pr_id := lit "i" |}.
Definition tr4 (names : dict) : dict := [(lit "Encrypt", ODict (enc4 names)); (lit "ID", OArr [OStr (lit "i")])].
Definition sec4 (names : dict) : section := {| sc_entries := [(1, new_xentry 0 0 1)]; sc_trailer := tr4 names |}.
Definition end4 (names off : bytes) : bytes := lit "xref 1 1 0 0 n trailer<</Encrypt" ++ t4 names ++ lit "/ID[(i)]>> startxref " ++ off ++ lit " %%EOF".

Lemma c4_text : obj_text c4 (ODict cf4).
Proof.
  apply (ot_dict (lit "/A<</CFM/AESV2>>/B<</CFM/V2/Length 16>>") cf4); [| keys]. cbn [flatten cf4].
  apply (cons0 (lit "/A")); [nm | | right; delim_end]. apply (cons0 (lit "<</CFM/AESV2>>")); [| | left; exact I].
  { apply (ot_dict (lit "/CFM/AESV2") [(lit "CFM", OName (lit "AESV2"))]); [| keys]. cbn [flatten]. apply (cons0 (lit "/CFM")); [nm | | right; delim_end]. apply (cons0 (lit "/AESV2")); [nm | apply nil0 | right; apply end0]. }
  apply (cons0 (lit "/B")); [nm | | right; delim_end]. apply (cons0 (lit "<</CFM/V2/Length 16>>")); [| apply nil0 | left; exact I].
  apply (ot_dict (lit "/CFM/V2/Length 16") [(lit "CFM", OName (lit "V2")); (lit "Length", ONum (num_of_Z 16))]); [| keys]. cbn [flatten].
  apply (cons0 (lit "/CFM")); [nm | | right; delim_end]. apply (cons0 (lit "/V2")); [nm | | right; delim_end]. one_int "/Length"%string "16"%string. apply nil0.
Qed.
Lemma i4_items : forall t d, items t (flatten d) -> ends_token t -> items (i4 t) (flatten (enc4 d)).
Proof.
  intros t d H ET. unfold i4, enc4. cbn [flatten List.app].
  apply (cons0 (lit "/Filter")); [nm | | right; delim_end]. apply (cons0 (lit "/Standard")); [nm | | right; delim_end].
  one_int "/V"%string "4"%string. one_int "/R"%string "4"%string. one_int "/Length"%string "128"%string.
  apply (cons0 (lit "/O")); [nm | | right; delim_end]. apply (cons0 (lit "(o)")); [str_obj "o"%string | | left; exact I].
  apply (cons0 (lit "/U")); [nm | | right; delim_end].
  apply (cons0 (lit "<" ++ hex u4 ++ lit ">")); [hex_obj u4 | | left; exact I].
  apply (cons0 (lit "/P")); [nm | | right; delim_end]. apply (cons1 (lit "-4")); [neg_obj "4"%string 4 | | right; delim_end].
  apply (cons0 (lit "/CF")); [nm | | right; delim_end]. apply (cons0 c4); [apply c4_text | exact H | left; exact I].
Qed.
(** What the documents have in common. *)
Section Common.
  Variables (nt offs : bytes) (names : dict) (file : bytes) (off : Z).
  Hypothesis HT : items nt (flatten names).
  Hypothesis HE : ends_token nt.
  Hypothesis HK : NoDup (map fst (enc4 names)).
  Hypothesis HO : 0 <= off.
  Hypothesis HF : zdrop off file = end4 nt offs.
  Lemma tr4_text : obj_text (lit "<</Encrypt" ++ t4 nt ++ lit "/ID[(i)]>>") (ODict (tr4 names)).
  Proof.
    replace (lit "<</Encrypt" ++ t4 nt ++ lit "/ID[(i)]>>") with ("<"%byte :: "<"%byte :: (lit "/Encrypt" ++ t4 nt ++ lit "/ID[(i)]") ++ [">"%byte; ">"%byte]) by (rewrite <- !app_assoc; reflexivity).
    apply ot_dict; [| unfold tr4; keys]. cbn [flatten tr4]. apply (cons0 (lit "/Encrypt")); [nm | | right; delim_end].
    apply cons0; [| | left; exact I].
    { change (t4 nt) with ("<"%byte :: "<"%byte :: i4 nt ++ [">"%byte; ">"%byte]). apply ot_dict; [apply i4_items; assumption | exact HK]. }
    apply (cons0 (lit "/ID")); [nm | | right; delim_end]. apply (cons0 (lit "[(i)]")); [| apply nil0 | left; exact I].
    apply (ot_arr (lit "(i)")). apply (cons0 (lit "(i)")); [str_obj "i"%string | apply nil0 | left; exact I].
  Qed.
  Lemma chain4 : chain E5 file off [] [sec4 names].
  Proof.
    apply ch_last; [intros [] |].
    apply (at_table E5 file off [] (lit " ") (lit "1 1 0 0 n ") [(1, [(0, 0, true)])] [] (lit "<</Encrypt" ++ t4 nt ++ lit "/ID[(i)]>>") (tr4 names) (lit " startxref " ++ offs ++ lit " %%EOF"));
      [exact HO | | gaps | gaps | discriminate | | gaps | apply tr4_text | vm_compute; discriminate | apply pv_none; reflexivity].
    - rewrite HF. unfold end4. cbn [List.app]. rewrite <- !app_assoc. reflexivity.
    - apply (tt_cons (lit "1") 1 (lit " ") (lit "1") (lit " ") (lit "0 0 n ") [(0, 0, true)] []); try nat_lit; try gaps; try discriminate; try reflexivity; [| apply tt_nil].
      apply (ls_cons (lit "0 0 n") (0, 0, true) (lit " ") []); [ln "0"%string 0 "0"%string 0 true | gaps | discriminate | apply ls_nil].
  Qed.
End Common.
Lemma user4 : user_password E5 pr4 [].
Proof.
  exists u4. split; [| reflexivity].
  change (user_entry Md5.md5 4 (lit "i") (file_key_of Md5.md5 4 true (lit "o") (-4) (lit "i") [] 16) u4).
  replace (file_key_of Md5.md5 4 true (lit "o") (-4) (lit "i") [] 16) with k4 by (vm_compute; reflexivity).
  unfold user_entry. change (4 =? 2) with false. cbv iota.
  replace u4 with (rc4_rounds 20 (Z.of_nat 0) k4 (Md5.md5 (pad32 ++ lit "i"))) by (vm_compute; reflexivity).
  apply (rc4_rounds_spec k4 (Md5.md5 (pad32 ++ lit "i")) ltac:(discriminate) 20 0); [lia | apply rt_zero].
Qed.
Lemma filters4 : forall names, crypt_filters (enc4 names) cf4.
Proof. intros names. left. reflexivity. Qed.
Lemma handler4 : forall names, entry names (lit "EncryptMetadata") = None -> handler [sec4 names] (enc4 names) pr4.
Proof.
  intros names NM. split; try reflexivity; try (eexists; split; reflexivity); [| left; split; [exact NM | reflexivity]].
  right. split; [right; split; [reflexivity |]; split; [reflexivity |]; exists cf4; split; [apply filters4 |] | exists 128; split; [left; eexists; split; reflexivity | split; [lia | reflexivity]]].
  split; [keys |]. intros k o [Q | [Q | []]]; injection Q as <- <-; do 2 eexists; (split; [reflexivity |]); (split; [reflexivity |]); [right; reflexivity | left]. exists 16. split; [eexists; split; reflexivity | lia].
Qed.
Lemma named_a : forall names, filter_named (enc4 names) 16 (lit "A") Aes.
Proof. intros names. exists cf4. split; [apply filters4 |]. left. eexists. split; [left; reflexivity |]. split; [reflexivity | right; reflexivity]. Qed.
Lemma named_b : forall names, filter_named (enc4 names) 16 (lit "B") Rc4.
Proof. intros names. exists cf4. split; [apply filters4 |]. left. eexists. split; [right; left; reflexivity |]. split; [reflexivity | left; eexists; split; reflexivity]. Qed.
Lemma named_identity : forall names, filter_named (enc4 names) 16 (lit "Identity") Clear.
Proof. intros names. exists cf4. split; [apply filters4 |]. right. split; [reflexivity |]. split; [| reflexivity]. intros [Q | [Q | []]]; discriminate. Qed.

(** *** strings and one stream with RC4, other streams not encrypted *)
Definition names_x : dict := [(lit "StmF", OName (lit "Identity")); (lit "StrF", OName (lit "B")); (lit "EEF", OName (lit "B"))].
Definition ok4 : bytes := Eval vm_compute in object_key_of Md5.md5 false k4 1 0.
Definition csx : bytes := Eval vm_compute in rc4 ok4 (lit "secret").
Definition cdx : bytes := Eval vm_compute in rc4 ok4 (lit "3431>").
Definition dx (s : bytes) : dict := [(lit "Filter", OArr [OName (lit "Crypt"); OName (lit "ASCIIHexDecode")]); (lit "DecodeParms", OArr [ODict [(lit "Name", OName (lit "B"))]]); (lit "S", OStr s)].
Definition tx : bytes := Eval vm_compute in lit "<</Filter[/Crypt/ASCIIHexDecode]/DecodeParms[<</Name/B>>]/S<" ++ hex csx ++ lit ">>>".
Definition doc_x : bytes := Eval vm_compute in
  lit "1 0 obj" ++ tx ++ lit "stream" ++ x0a :: cdx ++ x0a :: lit "endstream endobj " ++ end4 (lit "/StmF/Identity/StrF/B/EEF/B") (lit "112").
Definition ox : iobj := {| inum := 1; igen := 0; ival := ODict (dx (lit "secret")); istream := Some (lit "41") |}.
Definition scheme_x : scheme := {| for_strings := Rc4; for_streams := Clear; for_files := Rc4; by_name := fun k m => k = lit "B" /\ m = Rc4 |}.
Definition px : pst := match load 9 E5 (fun l => l) doc_x [] (new_parser doc_x) with Ok (_, p) => p | _ => new_parser doc_x end.
(** *** AES *)
Definition names_a : dict := [(lit "StmF", OName (lit "A")); (lit "StrF", OName (lit "A")); (lit "EEF", OName (lit "A"))].
Definition ca : bytes := Eval vm_compute in aes_iv ++ xor_bytes aes_full aes_iv.
Definition doc_a : bytes := Eval vm_compute in lit "1 0 obj<" ++ hex ca ++ lit ">endobj " ++ end4 (lit "/StmF/A/StrF/A/EEF/A") (lit "80").
Definition oa : iobj := {| inum := 1; igen := 0; ival := OStr (lit "sixteen byte"); istream := None |}.
Definition scheme_a : scheme := {| for_strings := Aes; for_streams := Aes; for_files := Aes; by_name := fun k m => False |}.
Definition pa : pst := match load 9 E5 (fun l => l) doc_a [] (new_parser doc_a) with Ok (_, p) => p | _ => new_parser doc_a end.
(** *** no names *)
Definition doc_d : bytes := Eval vm_compute in lit "1 0 obj(hello)endobj " ++ end4 [] (lit "21").
Definition od : iobj := {| inum := 1; igen := 0; ival := OStr (lit "hello"); istream := None |}.
Definition scheme_d : scheme := {| for_strings := Clear; for_streams := Clear; for_files := Clear; by_name := fun k m => False |}.
Definition pd : pst := match load 9 E5 (fun l => l) doc_d [] (new_parser doc_d) with Ok (_, p) => p | _ => new_parser doc_d end.

Lemma first_only : forall names, placed doc_x [0] [sec4 names] 0 1 0 (new_xentry 0 0 1) /\ placed doc_a [0] [sec4 names] 0 1 0 (new_xentry 0 0 1) /\ placed doc_d [0] [sec4 names] 0 1 0 (new_xentry 0 0 1).
Proof. intros names. split; [| split]; (split; [left; reflexivity |]; split; [intros k [<- | []] _; lia | repeat split]). Qed.
Ltac first_header d := intros k [<- | []]; exists 1; (split; [lia |]); (split; [lia |]); (split; [lia |]); exists (lit "1 0 obj"), 0, (skipn 7 d); split; [reflexivity | head "1"%string 1].
Lemma key4 : file_key E5 pr4 [] (pr_n pr4) = k4.
Proof. vm_compute. reflexivity. Qed.
Lemma sealed_a : sealed_at E5 doc_a (file_key E5 pr4 [] (pr_n pr4)) scheme_a 0 oa.
Proof.
  rewrite key4. split; [lia | cbn; lia | cbn; lia | lia |]. exists (lit "1 0 obj"), (skipn 7 doc_a). split; [reflexivity |]. split; [head "1"%string 1 |].
  apply (sb_plain E5 _ _ _ [] (lit "<" ++ hex ca ++ lit ">") (OStr (lit "sixteen byte")) (OStr ca) [] (skipn 79 doc_a)); [gaps | | hex_obj ca | gaps | delim_end | exact I | delim_end | reflexivity].
  apply se_str. exists (fun b => b). split; [intros b H; split; [assumption | reflexivity] |]. change ca with (aes_iv ++ xor_bytes aes_full aes_iv). apply aes_ex.
Qed.
Lemma sealed_d : sealed_at E5 doc_d (file_key E5 pr4 [] (pr_n pr4)) scheme_d 0 od.
Proof.
  rewrite key4. split; [lia | cbn; lia | cbn; lia | lia |]. exists (lit "1 0 obj"), (skipn 7 doc_d). split; [reflexivity |]. split; [head "1"%string 1 |].
  apply (sb_plain E5 _ _ _ [] (lit "(hello)") (OStr (lit "hello")) (OStr (lit "hello")) [] (skipn 20 doc_d)); [gaps | apply se_str; reflexivity | str_obj "hello"%string | gaps | delim_end | exact I | delim_end | reflexivity].
Qed.
Lemma tx_text : obj_text tx (ODict (dx csx)).
Proof.
  apply (ot_dict (lit "/Filter[/Crypt/ASCIIHexDecode]/DecodeParms[<</Name/B>>]/S<" ++ hex csx ++ lit ">") (dx csx)); [| unfold dx; keys]. cbn [flatten dx].
  apply (cons0 (lit "/Filter")); [nm | | right; delim_end]. apply (cons0 (lit "[/Crypt/ASCIIHexDecode]")); [| | left; exact I].
  { apply (ot_arr (lit "/Crypt/ASCIIHexDecode")). apply (cons0 (lit "/Crypt")); [nm | | right; delim_end]. apply (cons0 (lit "/ASCIIHexDecode")); [nm | apply nil0 | right; apply end0]. }
  apply (cons0 (lit "/DecodeParms")); [nm | | right; delim_end]. apply (cons0 (lit "[<</Name/B>>]")); [| | left; exact I].
  { apply (ot_arr (lit "<</Name/B>>")). apply (cons0 (lit "<</Name/B>>")); [| apply nil0 | left; exact I].
    apply (ot_dict (lit "/Name/B") [(lit "Name", OName (lit "B"))]); [| keys]. cbn [flatten]. apply (cons0 (lit "/Name")); [nm | | right; delim_end]. apply (cons0 (lit "/B")); [nm | apply nil0 | right; apply end0]. }
  apply (cons0 (lit "/S")); [nm | | right; delim_end]. apply (cons0 (lit "<" ++ hex csx ++ lit ">")); [hex_obj csx | apply nil0 | left; exact I].
Qed.
Lemma sealed_x : sealed_at E5 doc_x (file_key E5 pr4 [] (pr_n pr4)) scheme_x 0 ox.
Proof.
  rewrite key4. assert (HK : forall p, p <> [] -> hidden E5 k4 (inum ox) (igen ox) Rc4 p (rc4 ok4 p)).
  { intros p N. cbn [hidden]. replace (object_key_of (e_md5 E5) false k4 (inum ox) (igen ox)) with ok4 by (vm_compute; reflexivity). apply rc4_encrypts. discriminate. }
  split; [lia | cbn; lia | cbn; lia | lia |]. exists (lit "1 0 obj"), (skipn 7 doc_x). split; [reflexivity |]. split; [head "1"%string 1 |].
  apply (sb_stream E5 _ _ _ [] tx (dx (lit "secret")) (dx csx) [] [] [x0a] (lit "3431>") cdx [x0a] (skipn 104 doc_x) [OName (lit "Crypt"); OName (lit "ASCIIHexDecode")] [ODict [(lit "Name", OName (lit "B"))]]
           Rc4 [OName (lit "ASCIIHexDecode")] []);
    [gaps | | apply tx_text | gaps | intros ? [] | delim_end | | | | | | | apply eb_lf | apply occurs_check; vm_compute; reflexivity | apply ea_lf; last_byte | vm_compute; discriminate].
  - apply se_dict. constructor; [split; [reflexivity | apply se_arr; repeat constructor] |]. constructor; [split; [reflexivity | apply se_arr; repeat constructor] |]. constructor; [| constructor]. split; [reflexivity |]. apply se_str.
    change csx with (rc4 ok4 (lit "secret")). apply HK. discriminate.
  - apply fo_arr; [exists [], (tl (dx (lit "secret"))); split; [reflexivity | intros []] | intros o [<- | [<- | []]] ? ?; discriminate].
  - apply po_arr; [exists [hd (lit "", OStr []) (dx (lit "secret"))], (tl (tl (dx (lit "secret")))); split; [reflexivity | intros [Q | []]; discriminate] | intros o [<- | []] ? ?; discriminate].
  - intros x (d1 & d2 & Q & _) n g. destruct d1 as [| y [| z [| z' d1]]]; try discriminate. destruct d1; discriminate.
  - apply (sm_crypt scheme_x _ _ [ODict [(lit "Name", OName (lit "B"))]] (lit "B")); [apply cn_name; exists [], []; split; [reflexivity | intros []] | split; reflexivity].
  - change cdx with (rc4 ok4 (lit "3431>")). apply HK. discriminate.
  - eapply dc_cons; [apply (st_hex E5 []); discriminate | apply dc_nil].
Qed.
Lemma doc_x_chain : chain E5 doc_x 112 [] [sec4 names_x].
Proof.
  apply (chain4 (lit "/StmF/Identity/StrF/B/EEF/B") (lit "112") names_x); [| delim_end | unfold enc4, names_x; keys | lia | vm_compute; reflexivity]. cbn [flatten names_x].
  apply (cons0 (lit "/StmF")); [nm | | right; delim_end]. apply (cons0 (lit "/Identity")); [nm | | right; delim_end].
  apply (cons0 (lit "/StrF")); [nm | | right; delim_end]. apply (cons0 (lit "/B")); [nm | | right; delim_end].
  apply (cons0 (lit "/EEF")); [nm | | right; delim_end]. apply (cons0 (lit "/B")); [nm | apply nil0 | right; apply end0].
Qed.
Lemma doc_a_chain : chain E5 doc_a 80 [] [sec4 names_a].
Proof.
  apply (chain4 (lit "/StmF/A/StrF/A/EEF/A") (lit "80") names_a); [| delim_end | unfold enc4, names_a; keys | lia | vm_compute; reflexivity]. cbn [flatten names_a].
  apply (cons0 (lit "/StmF")); [nm | | right; delim_end]. apply (cons0 (lit "/A")); [nm | | right; delim_end].
  apply (cons0 (lit "/StrF")); [nm | | right; delim_end]. apply (cons0 (lit "/A")); [nm | | right; delim_end].
  apply (cons0 (lit "/EEF")); [nm | | right; delim_end]. apply (cons0 (lit "/A")); [nm | apply nil0 | right; apply end0].
Qed.
Lemma doc_d_chain : chain E5 doc_d 21 [] [sec4 []].
Proof. apply (chain4 [] (lit "21") []); [apply nil0 | apply end0 | unfold enc4; keys | lia | vm_compute; reflexivity]. Qed.

Lemma C83_filters_ex : load 9 E5 (fun l => l) doc_x [] (new_parser doc_x) = Ok (None, px) /\ offsets_ok (pxref px) /\
  last_start (last256 doc_x) 112 /\ chain E5 doc_x 112 [] [sec4 names_x] /\ only_at doc_x [0] /\ (forall k, In k [0] -> exists n, header_at doc_x k n) /\
  encryption E5 doc_x [0] [sec4 names_x] (enc4 names_x) None /\ handler [sec4 names_x] (enc4 names_x) pr4 /\ user_password E5 pr4 [] /\
  scheme_of (enc4 names_x) pr4 scheme_x /\ no_aes scheme_x /\ no_default (enc4 names_x) scheme_x /\
  sealed_at E5 doc_x (file_key E5 pr4 [] (pr_n pr4)) scheme_x 0 ox /\ placed doc_x [0] [sec4 names_x] 0 1 0 (new_xentry 0 0 1).
Proof.
  split; [vm_compute; reflexivity |]. split; [apply offsets_check; vm_compute; reflexivity |]. split; [apply start_offset; vm_compute; reflexivity |]. split; [apply doc_x_chain |].
  split; [apply only_check; vm_compute; reflexivity |]. split; [first_header doc_x |]. split; [apply en_direct; reflexivity |]. split; [apply handler4; reflexivity |]. split; [apply user4 |]. split.
  { split; [left; exists (lit "B"); split; [reflexivity | apply named_b] |]. split; [left; exists (lit "Identity"); split; [reflexivity | apply named_identity] |].
    split; [left; exists (lit "B"); split; [reflexivity | apply named_b] |]. intros k m [-> ->]. apply named_b. }
  split; [split; [discriminate |]; split; [discriminate |]; split; [discriminate |]; intros k [_ Q]; discriminate |].
  split; [split; [discriminate |]; split; discriminate |]. split; [apply sealed_x | apply first_only].
Qed.
Lemma sealed_aes_refuted : exists E fuel ord file pw p off secs is enc pr n0 s i o e, (2 <= fuel)%nat /\ (forall m, Permutation (ord m) m) /\ (forall x, List.length (e_md5 E x) = 16%nat) /\
  load fuel E ord file pw (new_parser file) = Ok (None, p) /\ offsets_ok (pxref p) /\ last_start (last256 file) off /\ off < 2 ^ 63 /\ chain E file off [] secs /\
  only_at file is /\ (forall k, In k is -> exists n, header_at file k n) /\
  encryption E file is secs enc n0 /\ handler secs enc pr /\ user_password E pr pw /\ scheme_of enc pr s /\ no_default enc s /\
  sealed_at E file (file_key E pr pw (pr_n pr)) s i o /\ placed file is secs i (inum o) (igen o) e /\ x_enc e = true /\ n0 <> Some (inum o) /\ ~ fetched E file p (inum o) o.
Proof.
  exists E5, 9%nat, (fun l => l), doc_a, [], pa, 80, [sec4 names_a], [0], (enc4 names_a), pr4, None, scheme_a, 0, oa, (new_xentry 0 0 1).
  split; [lia |]. split; [reflexivity |]. split; [apply md5_16 |].
  split; [vm_compute; reflexivity |]. split; [apply offsets_check; vm_compute; reflexivity |]. split; [apply start_offset; vm_compute; reflexivity |]. split; [lia |]. split; [apply doc_a_chain |].
  split; [apply only_check; vm_compute; reflexivity |]. split; [first_header doc_a |]. split; [apply en_direct; reflexivity |]. split; [apply handler4; reflexivity |]. split; [apply user4 |]. split.
  { split; [left; exists (lit "A"); split; [reflexivity | apply named_a] |]. split; [left; exists (lit "A"); split; [reflexivity | apply named_a] |].
    split; [left; exists (lit "A"); split; [reflexivity | apply named_a] |]. intros k m []. }
  split; [split; [discriminate |]; split; discriminate |]. split; [apply sealed_a |]. split; [apply first_only |]. split; [reflexivity |]. split; [discriminate |].
  intros F. assert (X : fetched E5 doc_a pa 1 {| inum := 1; igen := 0; ival := OStr (aes_iv ++ aes_full); istream := None |}) by fetch9.
  pose proof (fetched_det _ _ _ _ _ _ F X) as Q. discriminate Q.
Qed.
Lemma sealed_default_refuted : exists E fuel ord file pw p off secs is enc pr n0 s i o e, (2 <= fuel)%nat /\ (forall m, Permutation (ord m) m) /\ (forall x, List.length (e_md5 E x) = 16%nat) /\
  load fuel E ord file pw (new_parser file) = Ok (None, p) /\ offsets_ok (pxref p) /\ last_start (last256 file) off /\ off < 2 ^ 63 /\ chain E file off [] secs /\
  only_at file is /\ (forall k, In k is -> exists n, header_at file k n) /\
  encryption E file is secs enc n0 /\ handler secs enc pr /\ user_password E pr pw /\ scheme_of enc pr s /\ no_aes s /\
  sealed_at E file (file_key E pr pw (pr_n pr)) s i o /\ placed file is secs i (inum o) (igen o) e /\ x_enc e = true /\ n0 <> Some (inum o) /\ ~ fetched E file p (inum o) o.
Proof.
  exists E5, 9%nat, (fun l => l), doc_d, [], pd, 21, [sec4 []], [0], (enc4 []), pr4, None, scheme_d, 0, od, (new_xentry 0 0 1).
  split; [lia |]. split; [reflexivity |]. split; [apply md5_16 |].
  split; [vm_compute; reflexivity |]. split; [apply offsets_check; vm_compute; reflexivity |]. split; [apply start_offset; vm_compute; reflexivity |]. split; [lia |]. split; [apply doc_d_chain |].
  split; [apply only_check; vm_compute; reflexivity |]. split; [first_header doc_d |]. split; [apply en_direct; reflexivity |]. split; [apply handler4; reflexivity |]. split; [apply user4 |].
  split; [split; [right; split; reflexivity |]; split; [right; split; reflexivity |]; split; [right; split; reflexivity |]; intros k m [] |].
  split; [split; [discriminate |]; split; [discriminate |]; split; [discriminate |]; intros k [] |]. split; [apply sealed_d |]. split; [apply first_only |]. split; [reflexivity |]. split; [discriminate |].
  intros F. assert (X : fetched E5 doc_d pd 1 {| inum := 1; igen := 0; ival := OStr (rc4 ok4 (lit "hello")); istream := None |}) by fetch9.
  pose proof (fetched_det _ _ _ _ _ _ F X) as Q. apply (f_equal (fun x => match ival x with OStr (b :: _) => b | _ => x00 end)) in Q. vm_compute in Q. discriminate Q.
Qed.
