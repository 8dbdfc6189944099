(** PropDoc.v -- C82, C83: documents with cross-reference sections, plain and
    encrypted.  Only statements; the proofs are in DocP.v and CryptDocP.v, the
    witnesses in DocEx.v and CryptDocEx.v. *)
From Verif Require Import Base Msg Reader Num Lexer Obj ReadObj Env Getters Crypt GetObj Load SpecLex SpecObj SpecFetch FetchEx SpecStream SpecScan SpecXref
  SpecCrypt SpecSecurity CryptEx SpecRecover RecoverEx DocP DocEx SpecCryptDoc CryptDocP CryptDocEx CryptFilterEx.
From Coq Require Import Strings.String Sorting.Permutation.

(** ** C82: documents are read as their newest cross-reference sections say.
    Full statement: if startxref names the first of a chain of sections of a
    document without encryption, then the object at the offset in the newest
    entry for its number is the object fetched for that number, objects whose
    newest entry is not in use are null, and the trailer has the newest values.
    This is false: text in a string that looks like the start of an object is
    fetched instead of the object the table names. *)
Theorem C82_sections_refuted : exists E fuel ord file pw p off secs i o e, (2 <= fuel)%nat /\ (forall m, Permutation (ord m) m) /\
  load fuel E ord file pw (new_parser file) = Ok (None, p) /\ entry (ptrailer p) (lit "Encrypt") = None /\
  last_start (last256 file) off /\ off < 2 ^ 63 /\ chain E file off [] secs /\
  object_at E file i o /\ newest (inum o) secs = Some e /\ x_type e = 1 /\ x_off e = i /\ x_gen e = igen o /\ ~ fetched E file p (inum o) o.
Proof. exact tabled_refuted. Qed.
Print Assumptions C82_sections_refuted.

(** True for objects with no later text in the file that looks like the start of
    an object of the same number; for deleted objects and the trailer always. *)
Theorem C82_sections_partial : forall E fuel ord file pw p off secs is, (2 <= fuel)%nat -> (forall m, Permutation (ord m) m) ->
  load fuel E ord file pw (new_parser file) = Ok (None, p) -> entry (ptrailer p) (lit "Encrypt") = None ->
  last_start (last256 file) off -> off < 2 ^ 63 -> chain E file off [] secs ->
  only_at file is -> (forall k, In k is -> exists n, header_at file k n) ->
  (forall i o e, object_at E file i o -> placed file is secs i (inum o) (igen o) e -> fetched E file p (inum o) o) /\
  (forall n e, newest n secs = Some e -> x_type e <> 1 -> fetched E file p n {| inum := n; igen := 0; ival := OKw (lit "null"); istream := None |}) /\
  (forall k o, newest_key k secs = Some o -> entry (ptrailer p) k = Some o).
Proof. exact sections_read. Qed.
Print Assumptions C82_sections_partial.

Example C82_example : load 9 E0 (fun l => l) updated [] (new_parser updated) = Ok (None, pu) /\ entry (ptrailer pu) (lit "Encrypt") = None /\
  last_start (last256 updated) 96 /\ chain E0 updated 96 [] [up_new; up_old] /\
  only_at updated [0; 18; 78] /\ (forall k, In k [0; 18; 78] -> exists n, header_at updated k n) /\
  object_at E0 updated 78 oc /\ placed updated [0; 18; 78] [up_new; up_old] 78 1 0 (new_xentry 78 0 1) /\ newest 2 [up_new; up_old] = Some (new_xentry 0 1 0) /\
  newest_key (lit "R") [up_new; up_old] = Some (ONum (num_of_Z 3)) /\ newest_key (lit "S") [up_new; up_old] = Some (ONum (num_of_Z 2)).
Proof. exact C82_ex. Qed.

(** ** C83: encrypted documents are decrypted.
    Full statement: opened with the user password, a document encrypted by the
    standard security handler gives the objects and streams that were encrypted.
    This is false for AES, of which the initialisation vector and the padding
    are left, *)
Theorem C83_aes_refuted : exists E fuel ord file pw p off secs is enc pr n0 s i o e, (2 <= fuel)%nat /\ (forall m, Permutation (ord m) m) /\ (forall x, List.length (e_md5 E x) = 16%nat) /\
  load fuel E ord file pw (new_parser file) = Ok (None, p) /\ offsets_ok (pxref p) /\ last_start (last256 file) off /\ off < 2 ^ 63 /\ chain E file off [] secs /\
  only_at file is /\ (forall k, In k is -> exists n, header_at file k n) /\
  encryption E file is secs enc n0 /\ handler secs enc pr /\ user_password E pr pw /\ scheme_of enc pr s /\ no_default enc s /\
  sealed_at E file (file_key E pr pw (pr_n pr)) s i o /\ placed file is secs i (inum o) (igen o) e /\ x_enc e = true /\ n0 <> Some (inum o) /\
  ~ fetched E file p (inum o) o.
Proof. exact sealed_aes_refuted. Qed.
Print Assumptions C83_aes_refuted.
(** and where no crypt filter is named: what is not encrypted then is taken to
    be encrypted with RC4. *)
Theorem C83_default_refuted : exists E fuel ord file pw p off secs is enc pr n0 s i o e, (2 <= fuel)%nat /\ (forall m, Permutation (ord m) m) /\ (forall x, List.length (e_md5 E x) = 16%nat) /\
  load fuel E ord file pw (new_parser file) = Ok (None, p) /\ offsets_ok (pxref p) /\ last_start (last256 file) off /\ off < 2 ^ 63 /\ chain E file off [] secs /\
  only_at file is /\ (forall k, In k is -> exists n, header_at file k n) /\
  encryption E file is secs enc n0 /\ handler secs enc pr /\ user_password E pr pw /\ scheme_of enc pr s /\ no_aes s /\
  sealed_at E file (file_key E pr pw (pr_n pr)) s i o /\ placed file is secs i (inum o) (igen o) e /\ x_enc e = true /\ n0 <> Some (inum o) /\
  ~ fetched E file p (inum o) o.
Proof. exact sealed_default_refuted. Qed.
Print Assumptions C83_default_refuted.

(** It is false also for revision 2 with other key lengths (C39) and where stray
    text hides objects (C82).  True without these: for RC4 with V 1 or 2, and
    with V 4 for RC4 and data left as it is, as the crypt filters say; MD5
    stands for any function with 16 bytes of output. *)
Theorem C83_rc4_partial : forall E fuel ord file pw r p off secs is enc pr n0 s, (2 <= fuel)%nat -> (forall m, Permutation (ord m) m) -> (forall x, List.length (e_md5 E x) = 16%nat) ->
  load fuel E ord file pw (new_parser file) = Ok (r, p) -> offsets_ok (pxref p) ->
  last_start (last256 file) off -> off < 2 ^ 63 -> chain E file off [] secs ->
  only_at file is -> (forall k, In k is -> exists n, header_at file k n) ->
  encryption E file is secs enc n0 -> handler secs enc pr -> user_password E pr pw -> scheme_of enc pr s -> no_aes s -> no_default enc s ->
  r = None /\
  (forall i o e, sealed_at E file (file_key E pr pw (pr_n pr)) s i o -> placed file is secs i (inum o) (igen o) e -> x_enc e = true -> n0 <> Some (inum o) ->
    fetched E file p (inum o) o) /\
  (forall i o e, object_at E file i o -> placed file is secs i (inum o) (igen o) e -> x_enc e = false \/ n0 = Some (inum o) -> fetched E file p (inum o) o).
Proof. exact decrypted. Qed.
Print Assumptions C83_rc4_partial.

Example C83_example : (forall x, List.length (e_md5 E5 x) = 16%nat) /\ load 9 E5 (fun l => l) sealed_doc [] (new_parser sealed_doc) = Ok (None, ps) /\ offsets_ok (pxref ps) /\
  last_start (last256 sealed_doc) 199 /\ chain E5 sealed_doc 199 [] [sec2] /\
  only_at sealed_doc [0; 120] /\ (forall k, In k [0; 120] -> exists n, header_at sealed_doc k n) /\
  encryption E5 sealed_doc [0; 120] [sec2] enc2 (Some 1) /\ handler [sec2] enc2 pr2 /\ user_password E5 pr2 [] /\ scheme_of enc2 pr2 rc4_scheme /\ no_aes rc4_scheme /\ no_default enc2 rc4_scheme /\
  sealed_at E5 sealed_doc (file_key E5 pr2 [] 5) rc4_scheme 120 os2 /\ placed sealed_doc [0; 120] [sec2] 120 2 0 (new_xentry 120 0 1).
Proof. exact C83_ex. Qed.
(** V 4: strings and one stream encrypted, other streams not *)
Example C83_filters_example : load 9 E5 (fun l => l) doc_x [] (new_parser doc_x) = Ok (None, px) /\ offsets_ok (pxref px) /\
  last_start (last256 doc_x) 112 /\ chain E5 doc_x 112 [] [sec4 names_x] /\ only_at doc_x [0] /\ (forall k, In k [0] -> exists n, header_at doc_x k n) /\
  encryption E5 doc_x [0] [sec4 names_x] (enc4 names_x) None /\ handler [sec4 names_x] (enc4 names_x) pr4 /\ user_password E5 pr4 [] /\
  scheme_of (enc4 names_x) pr4 scheme_x /\ no_aes scheme_x /\ no_default (enc4 names_x) scheme_x /\
  sealed_at E5 doc_x (file_key E5 pr4 [] (pr_n pr4)) scheme_x 0 ox /\ placed doc_x [0] [sec4 names_x] 0 1 0 (new_xentry 0 0 1).
Proof. exact C83_filters_ex. Qed.
