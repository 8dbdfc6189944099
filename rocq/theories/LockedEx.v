(** LockedEx.v -- witnesses for C94 in PropLocked.v. *)
From Verif Require Import Base BaseP Msg Reader ReaderP Num NumP Lexer Obj ReadObj Bits Filters Regex RegexP Env Getters Crypt Rc4 Md5 Stream GetObj Xref Security Load Output Parse SpecLex SpecLexP SpecObj SpecRead
  ReadEx SpecFetch FetchP FetchEx SpecStream StreamEx SpecScan SpecXref ScanP XrefP XrefEx TextEx SpecCrypt CryptP SpecSecurity CryptEx SpecRecover RecoverP RecoverEx DocP DocEx
  SpecCryptDoc CryptDocP CryptDocEx SpecOut OutEx SpecLocked.
From Coq Require Import Strings.String Sorting.Permutation.

(** the document of C83 with a wrong password *)
Definition SL : sys := mksys (Some sealed_doc) (fun _ => true) StatNotExist.
Definition guess : bytes := lit "guess".
Definition guess_ops : list op := fst (parse E5 OD1 9 SL guess).
Definition guess_p : pst := match load 9 E5 (o_objects OD1) sealed_doc guess (new_parser sealed_doc) with Ok (_, p) => p | _ => new_parser sealed_doc end.
Lemma guess_wrong : ~ user_password E5 pr2 guess.
Proof.
  intros U. destruct C83_ex as (M & _ & _ & LS & CH & ON & HA & EN & HD & _ & SO & NA & ND & _).
  assert (L : load 9 E5 (fun l => l) sealed_doc guess (new_parser sealed_doc) = Ok (Some EncryptionPasswordError, guess_p)) by (vm_compute; reflexivity).
  destruct (decrypted E5 9 (fun l => l) sealed_doc guess _ _ 199 [sec2] [0; 120] enc2 pr2 (Some 1) rc4_scheme ltac:(lia) ltac:(reflexivity) M L) as [Q _]; try assumption; [| reflexivity | discriminate Q].
  apply offsets_check. vm_compute. reflexivity.
Qed.
Lemma C94_ex : order_ok OD1 /\ (forall x, List.length (e_md5 E5 x) = 16%nat) /\ s_input SL = Some sealed_doc /\ (forall f, s_create SL f = true) /\
  parse E5 OD1 9 SL guess = (guess_ops, Ok (PEnc EncryptionPasswordError)) /\
  load 9 E5 (o_objects OD1) sealed_doc guess (new_parser sealed_doc) = Ok (Some EncryptionPasswordError, guess_p) /\ offsets_ok (pxref guess_p) /\
  last_start (last256 sealed_doc) 199 /\ chain E5 sealed_doc 199 [] [sec2] /\
  only_at sealed_doc [0; 120] /\ (forall k, In k [0; 120] -> exists n, header_at sealed_doc k n) /\
  encryption E5 sealed_doc [0; 120] [sec2] enc2 (Some 1) /\ locked [sec2] enc2 pr2 /\ u_full pr2 /\ ~ user_password E5 pr2 guess /\ user_password E5 pr2 [].
Proof.
  destruct C83_ex as (M & _ & _ & LS & CH & ON & HA & EN & HD & U & _). split; [exact OD1_ok |]. split; [exact M |]. split; [reflexivity |]. split; [reflexivity |].
  split; [vm_compute; reflexivity |]. split; [vm_compute; reflexivity |]. split; [apply offsets_check; vm_compute; reflexivity |].
  split; [exact LS |]. split; [exact CH |]. split; [exact ON |]. split; [exact HA |]. split; [exact EN |].
  split; [destruct HD as [A1 A2 A3 A4 A5 A6 A7 A8 A9]; split; try assumption; left; repeat split; left; reflexivity |].
  split; [left; reflexivity |]. split; [exact guess_wrong | exact U].
Qed.

(** a document with a handler of its own *)
Definition opaque : bytes := lit "1 0 obj(a) endobj xref 1 1 0 0 n trailer<</Encrypt<</Filter/Mine>>>> startxref 18 %%EOF".
Definition mine : dict := [(lit "Filter", OName (lit "Mine"))].
Definition opaque_sec : section := {| sc_entries := [(1, new_xentry 0 0 1)]; sc_trailer := [(lit "Encrypt", ODict mine)] |}.
Definition SO : sys := mksys (Some opaque) (fun _ => true) StatNotExist.
Definition opaque_ops : list op := fst (parse E5 OD1 9 SO []).
Definition opaque_p : pst := match load 9 E5 (o_objects OD1) opaque [] (new_parser opaque) with Ok (_, p) => p | _ => new_parser opaque end.
Lemma opaque_chain : chain E5 opaque 18 [] [opaque_sec].
Proof.
  apply ch_last; [intros [] |].
  apply (at_table E5 opaque 18 [] (lit " ") (lit "1 1 0 0 n ") [(1, [(0, 0, true)])] [] (lit "<</Encrypt<</Filter/Mine>>>>") (sc_trailer opaque_sec) (lit " startxref 18 %%EOF"));
    [lia | vm_compute; reflexivity | gaps | gaps | discriminate | | gaps | | vm_compute; discriminate | apply pv_none; reflexivity].
  - apply (tt_cons (lit "1") 1 (lit " ") (lit "1") (lit " ") (lit "0 0 n ") [(0, 0, true)] []); try nat_lit; try gaps; try discriminate; try reflexivity; [| apply tt_nil].
    apply (ls_cons (lit "0 0 n") (0, 0, true) (lit " ") []); [ln "0"%string 0 "0"%string 0 true | gaps | discriminate | apply ls_nil].
  - apply (ot_dict (lit "/Encrypt<</Filter/Mine>>") (sc_trailer opaque_sec)); [| keys]. cbn [flatten sc_trailer opaque_sec].
    apply (cons0 (lit "/Encrypt")); [nm | | right; delim_end]. apply (cons0 (lit "<</Filter/Mine>>")); [| apply nil0 | left; exact I].
    apply (ot_dict (lit "/Filter/Mine") mine); [| keys]. cbn [flatten mine]. apply (cons0 (lit "/Filter")); [nm | | right; delim_end]. apply (cons0 (lit "/Mine")); [nm | apply nil0 | right; apply end0].
Qed.
Lemma C94_unknown_ex : order_ok OD1 /\ s_input SO = Some opaque /\ (forall f, s_create SO f = true) /\
  parse E5 OD1 9 SO [] = (opaque_ops, Ok (PEnc EncryptionUnsupported)) /\
  load 9 E5 (o_objects OD1) opaque [] (new_parser opaque) = Ok (Some EncryptionUnsupported, opaque_p) /\ offsets_ok (pxref opaque_p) /\
  last_start (last256 opaque) 18 /\ chain E5 opaque 18 [] [opaque_sec] /\
  only_at opaque [0] /\ (forall k, In k [0] -> exists n, header_at opaque k n) /\ encryption E5 opaque [0] [opaque_sec] mine None /\ unknown mine.
Proof.
  split; [exact OD1_ok |]. split; [reflexivity |]. split; [reflexivity |]. split; [vm_compute; reflexivity |]. split; [vm_compute; reflexivity |].
  split; [apply offsets_check; vm_compute; reflexivity |]. split; [apply start_offset; vm_compute; reflexivity |]. split; [exact opaque_chain |].
  split; [apply only_check; vm_compute; reflexivity |]. split.
  { intros k [<- | []]. exists 1. split; [lia |]. split; [lia |]. split; [lia |]. exists (lit "1 0 obj"), 0, (skipn 7 opaque). split; [reflexivity | head "1"%string 1]. }
  split; [apply en_direct; reflexivity |]. apply (un_filter mine (lit "Mine")); [reflexivity | discriminate].
Qed.
