(** PropCrypt.v -- C37-C42: encryption. *)
From Verif Require Import Base Msg Reader ReaderP Num Lexer Obj ReadObj Bits Filters Env Getters Crypt Rc4 Md5 Stream GetObj Regex Xref Security Load
  SpecLex SpecObj SpecRead SpecFetch SpecStream StreamObjP SpecLook SpecCrypt CryptP SpecSecurity SecurityP CryptObjP FetchEx CryptEx.
From Coq Require Import Strings.String Sorting.Permutation.

(** ** C37.  MD5 stands for any function with 16 bytes of output. *)
Theorem C37_rc4_inverts : forall E key n g plain cipher, (forall x, List.length (e_md5 E x) = 16%nat) ->
  rc4_encrypted (object_key_of (e_md5 E) false key n g) plain cipher -> new_decryptor E (CFRC4 key) n g cipher = Ok plain.
Proof. exact rc4_decryptor. Qed.
Print Assumptions C37_rc4_inverts.

Theorem C37_rc4_length : forall E key n g x, (forall x, List.length (e_md5 E x) = 16%nat) ->
  exists y, new_decryptor E (CFRC4 key) n g x = Ok y /\ List.length y = List.length x.
Proof. exact rc4_keeps_length. Qed.
Print Assumptions C37_rc4_length.

Theorem C37_rc4_cipher_exists : forall key plain, key <> [] -> exists cipher, rc4_encrypted key plain cipher.
Proof. exact rc4_cipher_exists. Qed.
Print Assumptions C37_rc4_cipher_exists.

Example C37_example : let key := object_key_of Md5.md5 false (lit "abcde") 7 1 in
  rc4_encrypted key (lit "Attack at dawn") (rc4 key (lit "Attack at dawn")) /\
  rc4 key (lit "Attack at dawn") <> lit "Attack at dawn" /\ List.length key = 10%nat.
Proof. exact C37_ex. Qed.
(** the specification agrees with a published test vector *)
Example C37_test_vector : rc4_encrypted (lit "Key") (lit "Plaintext") [xbb; xf3; x16; xe8; xd9; x40; xaf; x0a; xd3].
Proof. exact C37_vector. Qed.

(** ** C38: the full statement is [aes_encrypted enc plain cipher -> new_decryptor
    E (CFAES key) n g cipher = Ok plain].  The initialisation vector and the
    padding are left in the data, so that it is never true. *)
Theorem C38_aes_refuted : exists E key enc plain cipher, (forall x, List.length (e_md5 E x) = 16%nat) /\ List.length key = 16%nat /\
  block_inverse enc (e_aes_dec E (object_key_of (e_md5 E) true key 7 0)) /\ aes_encrypted enc plain cipher /\
  exists out, new_decryptor E (CFAES key) 7 0 cipher = Ok out /\ out <> plain.
Proof. exact aes_refuted. Qed.
Print Assumptions C38_aes_refuted.
Theorem C38_aes_always_refuted : forall E key enc n g plain cipher, (forall x, List.length (e_md5 E x) = 16%nat) -> (11 <= List.length key)%nat ->
  block_inverse enc (e_aes_dec E (object_key_of (e_md5 E) true key n g)) -> aes_encrypted enc plain cipher ->
  new_decryptor E (CFAES key) n g cipher <> Ok plain.
Proof. exact aes_never. Qed.
Print Assumptions C38_aes_always_refuted.
(** The blocks themselves are decrypted correctly. *)
Theorem C38_aes_partial : forall E key n g enc iv plain full c, (forall x, List.length (e_md5 E x) = 16%nat) -> (11 <= List.length key)%nat ->
  block_inverse enc (e_aes_dec E (object_key_of (e_md5 E) true key n g)) -> padded plain full -> cbc_encrypted enc iv full c ->
  new_decryptor E (CFAES key) n g (iv ++ c) = Ok (iv ++ full).
Proof. exact aes_decryptor. Qed.
Print Assumptions C38_aes_partial.

Example C38_example : aes_encrypted (fun b => b) (lit "sixteen byte") (aes_iv ++ xor_bytes aes_full aes_iv) /\
  block_inverse (fun b => b) (e_aes_dec E5 (object_key_of Md5.md5 true (lit "0123456789abcdef") 7 0)).
Proof. exact aes_ex. Qed.

(** ** C39 *)
Theorem C39_object_key_partial : forall E key n g (aes : bool),
  object_key E key n g (if aes then lit "sAlT" else []) = object_key_of (e_md5 E) aes key n g.
Proof. exact object_key_spec. Qed.
Print Assumptions C39_object_key_partial.
Theorem C39_file_key_partial : forall E r o p meta id password n, 2 <= r <= 4 -> 0 <= n <= 16 ->
  compute_key E {| ep_r := r; ep_o := o; ep_p := put32 p; ep_meta := meta; ep_id := id |} password n =
    Ok (file_key_of (e_md5 E) r meta o p id password (Z.to_nat n)).
Proof. exact compute_key_algorithm. Qed.
Print Assumptions C39_file_key_partial.
(** It is missing that the key has 5 bytes for revision 2, whatever Length
    says: a document whose U entry is the one Algorithm 4 prescribes for the
    empty password is not opened with it. *)
Theorem C39_key_length_refuted : exists p enc pr, reads [] p /\ offsets_ok (pxref p) /\ standard E5 [] p (ptrailer p) enc pr /\ pr_r pr = 2 /\
  user_entry Md5.md5 2 (pr_id pr) (file_key_of Md5.md5 2 (pr_meta pr) (pr_o pr) (pr_p pr) (pr_id pr) [] 5) (pr_u pr) /\
  forall fuel, exists p', set_password fuel E5 [] [] p = Ok (Some EncryptionPasswordError, p').
Proof. exact C39_length_refuted. Qed.
Print Assumptions C39_key_length_refuted.

Example C39_example : object_key_of Md5.md5 true (lit "abcde") 258 1 = object_key_of Md5.md5 true (lit "abcde") (258 + 2 ^ 24) (1 + 2 ^ 16) /\
  object_key_of Md5.md5 true (lit "abcde") 258 1 <> object_key_of Md5.md5 false (lit "abcde") 258 1.
Proof. exact C39_ex. Qed.

(** ** C40.  [user_password] is Algorithm 6. *)
Theorem C40_accepts_partial : forall E file p pw enc pr, reads file p -> offsets_ok (pxref p) -> (forall x, List.length (e_md5 E x) = 16%nat) ->
  standard E file p (ptrailer p) enc pr -> user_password E pr pw -> cf_good E file p pr pw enc ->
  exists h f0, installed E file p pr pw enc h /\ forall fuel, (f0 <= fuel)%nat -> exists p',
    set_password fuel E file pw p = Ok (None, p') /\ reads file p' /\ pxref p' = pxref p /\ ptrailer p' = ptrailer p /\ psh p' = h.
Proof. exact password_accepted. Qed.
Print Assumptions C40_accepts_partial.
Theorem C40_rejects_partial : forall E file p pw enc pr, reads file p -> offsets_ok (pxref p) -> (forall x, List.length (e_md5 E x) = 16%nat) ->
  standard E file p (ptrailer p) enc pr -> u_full pr -> ~ user_password E pr pw ->
  exists f0, forall fuel, (f0 <= fuel)%nat -> exists p', set_password fuel E file pw p = Ok (Some EncryptionPasswordError, p') /\ psh p' = psh p.
Proof. exact password_rejected. Qed.
Print Assumptions C40_rejects_partial.
Theorem C40_only_partial : forall E file p pw fuel p', reads file p -> offsets_ok (pxref p) -> (forall x, List.length (e_md5 E x) = 16%nat) ->
  set_password fuel E file pw p = Ok (None, p') ->
  exists enc pr, standard E file p (ptrailer p) enc pr /\ (u_full pr -> user_password E pr pw).
Proof. exact password_only. Qed.
Print Assumptions C40_only_partial.
Theorem C40_error_installs_nothing : forall E file p pw fuel e p', reads file p ->
  set_password fuel E file pw p = Ok (Some e, p') -> stays file p p'.
Proof. exact password_error_stays. Qed.
Print Assumptions C40_error_installs_nothing.
Theorem C40_unsupported : forall E file p pw enc, reads file p -> offsets_ok (pxref p) ->
  typed E file p is_dict (entry (ptrailer p) (lit "Encrypt")) enc ->
  (exists v, value E file p (entry enc (lit "Filter")) v /\ v <> Some (OName (lit "Standard"))) \/
  (typed E file p is_name (entry enc (lit "Filter")) (lit "Standard") /\ exists v, typed_or E file p is_int (entry enc (lit "V")) 0 v /\ ~ In v [1; 2; 4]) \/
  (typed E file p is_name (entry enc (lit "Filter")) (lit "Standard") /\ exists v r, typed E file p is_int (entry enc (lit "V")) v /\ In v [1; 2; 4] /\
     typed_or E file p is_int (entry enc (lit "R")) 0 r /\ ~ In r [2; 3; 4]) ->
  exists f0, forall fuel, (f0 <= fuel)%nat -> exists p', set_password fuel E file pw p = Ok (Some EncryptionUnsupported, p').
Proof. exact password_unsupported. Qed.
Print Assumptions C40_unsupported.
(** What is missing: a U entry of 9 to 15 bytes is compared with zeros behind it. *)
Theorem C40_short_u_refuted : exists p enc pr, reads [] p /\ offsets_ok (pxref p) /\ (forall x, List.length (e_md5 E5 x) = 16%nat) /\
  standard E5 [] p (ptrailer p) enc pr /\ ~ user_password E5 pr [] /\
  forall fuel, exists p', set_password fuel E5 [] [] p = Ok (None, p').
Proof. exact C40_short_refuted. Qed.
Print Assumptions C40_short_u_refuted.

Example C40_example : let u := w40 ++ repeat x00 16 in let p := p40 u in
  reads [] p /\ offsets_ok (pxref p) /\ (forall x, List.length (e_md5 E5 x) = 16%nat) /\
  standard E5 [] p (ptrailer p) (enc_dict 2 3 128 o32 u (-4)) (pr40 u) /\ u_full (pr40 u) /\
  user_password E5 (pr40 u) [] /\ cf_good E5 [] p (pr40 u) [] (enc_dict 2 3 128 o32 u (-4)) /\ ~ user_password E5 (pr40 u) (lit "guess").
Proof. exact C40_ex. Qed.
Example C40_unsupported_example : exists p enc, reads [] p /\ offsets_ok (pxref p) /\
  typed E5 [] p is_dict (entry (ptrailer p) (lit "Encrypt")) enc /\ exists v, value E5 [] p (entry enc (lit "Filter")) v /\ v <> Some (OName (lit "Standard")).
Proof. exact C40_unsupported_ex. Qed.

(** ** C41: the full statement is that [load] and [set_password] never give
    [Panic].  It is false for revision 3 with an empty U entry. *)
Theorem C41_no_crash_refuted : exists file, forall E ord pw fuel, (forall x, Permutation x (ord x)) -> (0 < fuel)%nat ->
  load fuel E ord file pw (new_parser file) = Panic.
Proof. exact (ex_intro _ crash crash_refuted). Qed.
Print Assumptions C41_no_crash_refuted.
Theorem C41_returns_partial : forall E file p pw, reads file p -> offsets_ok (pxref p) -> (forall x, List.length (e_md5 E x) = 16%nat) ->
  (forall n, exists o, target E file p n o) ->
  (forall enc pr, standard E file p (ptrailer p) enc pr -> u_long pr /\ (pr_r pr = 4 -> lengths_ok E file p enc)) ->
  exists r f0, forall fuel, (f0 <= fuel)%nat -> exists p', set_password fuel E file pw p = Ok (r, p').
Proof. exact password_returns. Qed.
Print Assumptions C41_returns_partial.

Example C41_example : let p := p40 (w40 ++ repeat x00 16) in
  (forall n, exists o, target E5 [] p n o) /\
  (exists enc pr, standard E5 [] p (ptrailer p) enc pr) /\
  (forall enc pr, standard E5 [] p (ptrailer p) enc pr -> u_long pr /\ (pr_r pr = 4 -> lengths_ok E5 [] p enc)).
Proof. exact C41_ex. Qed.
(** the first condition is also met by a document with objects *)
Example C41_targets : forall n, exists o, target E0 doc doc_state n o.
Proof. exact doc_targets. Qed.

(** ** C42.  Strings of an object use the string filter, unless the object is
    marked as not encrypted. *)
Theorem C42_strings : forall E file p n e head hn hg g1 t o g2 r fs,
  reads file p -> xget n (pxref p) = Some e -> x_type e = 1 -> 0 <= x_off e ->
  object_head head hn hg -> gap g1 -> obj_text t o -> gap g2 -> ends_token (g1 ++ t ++ g2 ++ lit "endobj" ++ r) ->
  may_follow o (g2 ++ lit "endobj" ++ r) -> ends_token r ->
  zdrop (x_off e) file = head ++ g1 ++ t ++ g2 ++ lit "endobj" ++ r ->
  (forall s, new_decryptor E (if x_enc e then sh_string (psh p) else CFNone) n (x_gen e) s = Ok (fs s)) ->
  forall fuel, exists p',
    GetObject (S fuel) E file n p = Ok ({| inum := n; igen := x_gen e; ival := map_strings fs o; istream := None |}, p') /\
    log (prd p') = log (prd p).
Proof. exact plain_object. Qed.
Print Assumptions C42_strings.
(** Streams: [stream_crypt] says which filter applies.  (This is C33; its
    conclusion holds with the filter [c] and no other.) *)
Theorem C42_streams : forall E file p n e head hn hg g1 t d v g2 pre eol data eol' r fs fd fl pl c fl' pl' out,
  reads file p -> xget n (pxref p) = Some e -> x_type e = 1 -> 0 <= x_off e ->
  object_head head hn hg -> gap g1 -> obj_text t (ODict d) -> gap g2 -> no_eol pre -> ends_token (pre ++ eol) ->
  eol_before eol (data ++ eol' ++ lit "endstream" ++ r) -> ~ occurs (lit "endstream") data -> eol_after data eol' ->
  zdrop (x_off e) file = head ++ g1 ++ t ++ g2 ++ lit "stream" ++ pre ++ eol ++ data ++ eol' ++ lit "endstream" ++ r ->
  zlen (head ++ g1 ++ t ++ g2 ++ lit "stream" ++ pre ++ eol) + 9 <= bufsize ->
  (forall s, new_decryptor E (if x_enc e then sh_string (psh p) else CFNone) n (x_gen e) s = Ok (fs s)) ->
  map_strings fs (ODict d) = ODict v -> filters_of v fl -> parms_of v pl ->
  stream_crypt (psh p) v (x_enc e) fl pl c fl' pl' ->
  new_decryptor E c n (x_gen e) data = Ok fd -> decoded E fl' pl' (Some fd) out ->
  exists f0, forall fuel, (f0 <= fuel)%nat -> exists p',
    GetObject fuel E file n p = Ok ({| inum := n; igen := x_gen e; ival := ODict v; istream := out |}, p') /\
    log (prd p') = log (prd p).
Proof. exact stream_object. Qed.
Print Assumptions C42_streams.
(** The encryption dictionary is marked as not encrypted by Load. *)
Theorem C42_encryption_dictionary : forall fuel E ord file pw p r p' n g e, reads file p -> load fuel E ord file pw p = Ok (r, p') ->
  entry (ptrailer p') (lit "Encrypt") = Some (ORef n g) -> xget n (pxref p') = Some e -> x_enc e = false.
Proof. exact load_exempts. Qed.
Print Assumptions C42_encryption_dictionary.
(** Cross-reference streams are decrypted when fetched after Load, if their
    own data lists them and is incomplete. *)
Theorem C42_xref_stream_refuted : exists p', load 9 E5 (fun x => x) xref_doc [] (new_parser xref_doc) = Ok (None, p') /\
  exists o p'', GetObject 9 E5 xref_doc 1 p' = Ok (o, p'') /\ istream o <> Some [x01; x00; x00].
Proof. exact xref_decrypted. Qed.
Print Assumptions C42_xref_stream_refuted.

Example C42_strings_example : let e := new_xentry 0 2 1 in
  let p := with_sh crypt_handler (with_xref [(1, e)] (new_parser crypt_file)) in
  reads crypt_file p /\ xget 1 (pxref p) = Some e /\ object_head (lit "1 2 obj") 1 2 /\ obj_text crypt_text (OStr crypt_bytes) /\
  zdrop 0 crypt_file = lit "1 2 obj" ++ [] ++ crypt_text ++ [] ++ lit "endobj" ++ [] /\
  (forall s, new_decryptor E5 (sh_string (psh p)) 1 2 s = Ok (rc4 (object_key_of Md5.md5 false (lit "abcde") 1 2) s)) /\
  map_strings (rc4 (object_key_of Md5.md5 false (lit "abcde") 1 2)) (OStr crypt_bytes) = OStr (lit "secret").
Proof. exact C42_strings_ex. Qed.
Example C42_dictionary_example : exists p', load 9 E5 (fun x => x) exempt_doc [] (new_parser exempt_doc) = Ok (None, p') /\
  entry (ptrailer p') (lit "Encrypt") = Some (ORef 1 0) /\ exists e, xget 1 (pxref p') = Some e.
Proof. exact C42_dictionary_ex. Qed.
