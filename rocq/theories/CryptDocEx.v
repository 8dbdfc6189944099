(** CryptDocEx.v -- witness for C83 in PropDoc.v. *)
From Verif Require Import Base BaseP Msg Reader ReaderP Num NumP Lexer Obj ReadObj Bits Filters Regex RegexP Env Getters Crypt Rc4 Md5 Stream GetObj Xref Security Load SpecLex SpecLexP SpecObj SpecRead
  ReadEx SpecFetch FetchP FetchEx SpecStream StreamEx SpecScan SpecXref ScanP XrefP XrefEx TextEx SpecCrypt CryptP SpecSecurity CryptEx SpecRecover RecoverP RecoverEx DocP DocEx
  SpecCryptDoc CryptDocP.
From Coq Require Import Strings.String Sorting.Permutation.

(** object 1 is the encryption dictionary, object 2 a stream with a string in
    its dictionary *)
Definition k42 : bytes := Eval vm_compute in file_key_of Md5.md5 2 true o42 (-4) (lit "i") [] 5.
Definition ok2 : bytes := Eval vm_compute in object_key_of Md5.md5 false k42 2 0.
Definition cs2 : bytes := Eval vm_compute in rc4 ok2 (lit "secret").
Definition cd2 : bytes := Eval vm_compute in rc4 ok2 (lit "3431>").
Definition enc2 : dict := [(lit "Filter", OName (lit "Standard")); (lit "V", ONum (num_of_Z 1)); (lit "R", ONum (num_of_Z 2)); (lit "O", OStr (lit "o")); (lit "U", OStr u42); (lit "P", ONum (num_of_Z (-4)))].
Definition t1 : bytes := Eval vm_compute in lit "<</Filter/Standard/V 1/R 2/O(o)/U<" ++ hex u42 ++ lit ">/P -4>>".
Definition t2 : bytes := Eval vm_compute in lit "<</Filter/ASCIIHexDecode/S<" ++ hex cs2 ++ lit ">>>".
Definition sealed_doc : bytes := Eval vm_compute in
  lit "1 0 obj" ++ t1 ++ lit "endobj 2 0 obj" ++ t2 ++ lit "stream" ++ x0a :: cd2 ++ x0a :: lit "endstream endobj xref 1 2 0 0 n 120 0 n trailer<</Encrypt 1 0 R/ID[(i)]>> startxref 199 %%EOF".
Definition os1 : iobj := {| inum := 1; igen := 0; ival := ODict enc2; istream := None |}.
Definition os2 : iobj := {| inum := 2; igen := 0; ival := ODict [(lit "Filter", OName (lit "ASCIIHexDecode")); (lit "S", OStr (lit "secret"))]; istream := Some (lit "41") |}.
Definition sec2 : section := {| sc_entries := [(1, new_xentry 0 0 1); (2, new_xentry 120 0 1)]; sc_trailer := [(lit "Encrypt", ORef 1 0); (lit "ID", OArr [OStr (lit "i")])] |}.
Definition pr2 : params := {| pr_v := 1; pr_r := 2; pr_n := 5; pr_o := lit "o"; pr_u := u42; pr_p := -4; pr_meta := true; pr_id := lit "i" |}.
Definition rc4_scheme : scheme := {| for_strings := Rc4; for_streams := Rc4; for_files := Rc4; by_name := fun _ _ => False |}.
Definition ps : pst := match load 9 E5 (fun l => l) sealed_doc [] (new_parser sealed_doc) with Ok (_, p) => p | _ => new_parser sealed_doc end.

Ltac hex_obj v := 
  apply (ot_hex (hex v) (flat_map (fun x => [Z.to_nat (bv x / 16); Z.to_nat (bv x mod 16)]) v) v);
  [vm_compute; repeat (apply hd_digit; [first [left; reflexivity | right; reflexivity] |]); apply hd_nil | vm_compute; repeat (apply hp_pair; [reflexivity |]); apply hp_nil].
Ltac neg_obj t n := apply (ot_int ("-"%byte :: lit t) _); [apply (it_minus (lit t) n); nat_lit | vm_compute; split; discriminate | discriminate].
Lemma t1_text : obj_text t1 (ODict enc2).
Proof.
  apply (ot_dict (lit "/Filter/Standard/V 1/R 2/O(o)/U<" ++ hex u42 ++ lit ">/P -4") enc2); [| keys]. cbn [flatten enc2].
  apply (cons0 (lit "/Filter")); [nm | | right; delim_end]. apply (cons0 (lit "/Standard")); [nm | | right; delim_end].
  one_int "/V"%string "1"%string. one_int "/R"%string "2"%string.
  apply (cons0 (lit "/O")); [nm | | right; delim_end]. apply (cons0 (lit "(o)")); [str_obj "o"%string | | left; exact I].
  apply (cons0 (lit "/U")); [nm | | right; delim_end]. apply (cons0 (lit "<" ++ hex u42 ++ lit ">")); [hex_obj u42 | | left; exact I].
  apply (cons0 (lit "/P")); [nm | | right; delim_end]. apply (cons1 (lit "-4")); [neg_obj "4"%string 4 | apply nil0 | right; apply end0].
Qed.
Lemma t2_text : obj_text t2 (ODict [(lit "Filter", OName (lit "ASCIIHexDecode")); (lit "S", OStr cs2)]).
Proof.
  apply (ot_dict (lit "/Filter/ASCIIHexDecode/S<" ++ hex cs2 ++ lit ">") [(lit "Filter", OName (lit "ASCIIHexDecode")); (lit "S", OStr cs2)]); [| keys]. cbn [flatten].
  apply (cons0 (lit "/Filter")); [nm | | right; delim_end]. apply (cons0 (lit "/ASCIIHexDecode")); [nm | | right; delim_end].
  apply (cons0 (lit "/S")); [nm | | right; delim_end]. apply (cons0 (lit "<" ++ hex cs2 ++ lit ">")); [hex_obj cs2 | apply nil0 | left; exact I].
Qed.
Lemma sealed_chain : chain E5 sealed_doc 199 [] [sec2].
Proof.
  apply ch_last; [intros [] |].
  apply (at_table E5 sealed_doc 199 [] (lit " ") (lit "1 2 0 0 n 120 0 n ") [(1, [(0, 0, true); (120, 0, true)])] [] (lit "<</Encrypt 1 0 R/ID[(i)]>>") (sc_trailer sec2) (lit " startxref 199 %%EOF"));
    [lia | vm_compute; reflexivity | gaps | gaps | discriminate | | gaps | | vm_compute; discriminate | apply pv_none; reflexivity].
  - apply (tt_cons (lit "1") 1 (lit " ") (lit "2") (lit " ") (lit "0 0 n 120 0 n ") [(0, 0, true); (120, 0, true)] []); try nat_lit; try gaps; try discriminate; try reflexivity; [| apply tt_nil].
    apply (ls_cons (lit "0 0 n") (0, 0, true) (lit " ") (lit "120 0 n ")); [ln "0"%string 0 "0"%string 0 true | gaps | discriminate |].
    apply (ls_cons (lit "120 0 n") (120, 0, true) (lit " ") []); [ln "120"%string 120 "0"%string 0 true | gaps | discriminate | apply ls_nil].
  - apply (ot_dict (lit "/Encrypt 1 0 R/ID[(i)]") (sc_trailer sec2)); [| keys]. cbn [flatten sc_trailer sec2].
    apply (cons0 (lit "/Encrypt")); [nm | | right; delim_end]. apply (cons1 (lit "1 0 R")); [| | right; delim_end].
    { apply (ot_ref (lit "1") 1 (lit " ") (lit "0") 0 (lit " ")); [nat_lit | lia | gaps | discriminate | nat_lit | lia | gaps | discriminate]. }
    apply (cons0 (lit "/ID")); [nm | | right; delim_end]. apply (cons0 (lit "[(i)]")); [| apply nil0 | left; exact I].
    apply (ot_arr (lit "(i)")). apply (cons0 (lit "(i)")); [str_obj "i"%string | apply nil0 | left; exact I].
Qed.
Lemma sealed_first : object_at E5 sealed_doc 0 os1.
Proof.
  split; [lia | cbn; lia | cbn; lia | lia | | intros d Q; injection Q as <-; discriminate].
  exists (lit "1 0 obj"), (skipn 7 sealed_doc). split; [reflexivity |]. split; [head "1"%string 1 |].
  apply (bh_plain E5 _ [] t1 (ODict enc2) [] (skipn 119 sealed_doc)); [gaps | apply t1_text | gaps | delim_end | exact I | delim_end | reflexivity].
Qed.
Lemma sealed_second : sealed_at E5 sealed_doc (file_key E5 pr2 [] 5) rc4_scheme 120 os2.
Proof.
  assert (K : file_key E5 pr2 [] 5 = k42) by (vm_compute; reflexivity). rewrite K.
  assert (HK : forall p, p <> [] -> hidden E5 k42 (inum os2) (igen os2) Rc4 p (rc4 ok2 p)).
  { intros p N. cbn [hidden]. replace (object_key_of (e_md5 E5) false k42 (inum os2) (igen os2)) with ok2 by (vm_compute; reflexivity). apply rc4_encrypts. discriminate. }
  split; [lia | cbn; lia | cbn; lia | last_nd |].
  exists (lit "2 0 obj"), (skipn 127 sealed_doc). split; [vm_compute; reflexivity |]. split; [head "2"%string 2 |].
  apply (sb_stream E5 _ _ _ [] t2 [(lit "Filter", OName (lit "ASCIIHexDecode")); (lit "S", OStr (lit "secret"))] [(lit "Filter", OName (lit "ASCIIHexDecode")); (lit "S", OStr cs2)] [] [] [x0a]
           (lit "3431>") cd2 [x0a] (skipn 191 sealed_doc) [OName (lit "ASCIIHexDecode")] [] Rc4 [OName (lit "ASCIIHexDecode")] []);
    [gaps | | apply t2_text | gaps | intros ? [] | delim_end | | | | | | | apply eb_lf | apply occurs_check; vm_compute; reflexivity | apply ea_lf; last_byte | vm_compute; discriminate].
  - apply se_dict. constructor; [split; [reflexivity | apply se_name] |]. constructor; [| constructor]. split; [reflexivity |]. apply se_str.
    change cs2 with (rc4 ok2 (lit "secret")). apply HK. discriminate.
  - apply fo_name. exists [], [(lit "S", OStr (lit "secret"))]. split; [reflexivity | intros []].
  - apply po_none. intros [Q | [Q | []]]; discriminate.
  - intros x (d1 & d2 & Q & _) n g. destruct d1 as [| y [| z d1]]; [discriminate | discriminate | destruct d1; discriminate].
  - apply (sm_stream rc4_scheme); [discriminate |]. intros (d1 & d2 & Q & _). destruct d1 as [| y [| z d1]]; [discriminate | discriminate | destruct d1; discriminate].
  - change cd2 with (rc4 ok2 (lit "3431>")). apply HK. discriminate.
  - eapply dc_cons; [apply (st_hex E5 []); discriminate | apply dc_nil].
Qed.
Lemma offsets_check : forall x : xmap, forallb (fun kv => 0 <=? x_off (snd kv)) x = true -> offsets_ok x.
Proof.
  intros x H n e X _. rewrite forallb_forall in H. assert (I : In (n, e) x).
  { revert X. clear. unfold xget. induction x as [| [k v] x IH]; cbn [mget]; [discriminate |]. destruct (Z.eqb_spec n k) as [-> |]; [intros Q; injection Q as ->; left; reflexivity | right; apply IH; assumption]. }
  apply H in I. apply Z.leb_le in I. exact I.
Qed.
Lemma C83_ex : (forall x, List.length (e_md5 E5 x) = 16%nat) /\ load 9 E5 (fun l => l) sealed_doc [] (new_parser sealed_doc) = Ok (None, ps) /\ offsets_ok (pxref ps) /\
  last_start (last256 sealed_doc) 199 /\ chain E5 sealed_doc 199 [] [sec2] /\
  only_at sealed_doc [0; 120] /\ (forall k, In k [0; 120] -> exists n, header_at sealed_doc k n) /\
  encryption E5 sealed_doc [0; 120] [sec2] enc2 (Some 1) /\ handler [sec2] enc2 pr2 /\ user_password E5 pr2 [] /\ scheme_of enc2 pr2 rc4_scheme /\ no_aes rc4_scheme /\ no_default enc2 rc4_scheme /\
  sealed_at E5 sealed_doc (file_key E5 pr2 [] 5) rc4_scheme 120 os2 /\ placed sealed_doc [0; 120] [sec2] 120 2 0 (new_xentry 120 0 1).
Proof.
  split; [apply md5_16 |]. split; [vm_compute; reflexivity |]. split.
  { apply offsets_check. vm_compute. reflexivity. }
  split; [apply start_offset; vm_compute; reflexivity |]. split; [apply sealed_chain |].
  split; [apply only_check; vm_compute; reflexivity |]. split.
  { intros k [<- | [<- | []]].
    - exists 1. split; [lia |]. split; [lia |]. split; [lia |]. exists (lit "1 0 obj"), 0, (skipn 7 sealed_doc). split; [reflexivity | head "1"%string 1].
    - exists 2. split; [lia |]. split; [lia |]. split; [last_nd |]. exists (lit "2 0 obj"), 0, (skipn 127 sealed_doc). split; [vm_compute; reflexivity | head "2"%string 2]. }
  split.
  { apply (en_object E5 sealed_doc [0; 120] [sec2] enc2 0 os1 (new_xentry 0 0 1) 0); [reflexivity | apply sealed_first | | reflexivity].
    split; [left; reflexivity |]. split; [| repeat split]. intros k [<- | [<- | []]] (_ & _ & _ & h & g & r & Z0 & Hd); [lia | exfalso].
    inversion Hd as [a n s b g' s' A S B S']; subst. pose proof (header_number_at _ _ _ _ _ _ Z0 Hd) as N1.
    assert (N2 : number_at sealed_doc 120 2) by (exists (lit "2"), (skipn 121 sealed_doc); split; [vm_compute; reflexivity |]; split; [nat_lit |]; intros c r' d Q D; vm_compute in Q; injection Q as <- _; apply decdigit_spec in D; destruct D; discriminate).
    pose proof (number_at_det _ _ _ _ N1 N2) as Q. vm_compute in Q. discriminate. }
  split.
  { split; try reflexivity; try (eexists; split; reflexivity); [left; repeat split; left; reflexivity | left; split; reflexivity]. }
  split.
  { exists u42. split; [| reflexivity]. change (user_entry Md5.md5 2 (lit "i") (file_key_of Md5.md5 2 true o42 (-4) (lit "i") [] 5) u42). unfold user_entry. change (2 =? 2) with true. cbv iota.
    replace u42 with (rc4 (file_key_of Md5.md5 2 true o42 (-4) (lit "i") [] 5) pad32) by (vm_compute; reflexivity).
    apply rc4_encrypts. intros Q. apply (f_equal (@List.length byte)) in Q. vm_compute in Q. discriminate. }
  split; [repeat split; destruct H | split; [repeat split; try discriminate; intros k [] | split; [repeat split |]]].
  split; [apply sealed_second |]. split; [right; left; reflexivity |]. split; [intros k [<- | [<- | []]] _; lia | repeat split].
Qed.
