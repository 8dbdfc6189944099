(** CryptEx.v -- witnesses for PropCrypt.v, with MD5 as the hash function. *)
From Verif Require Import Base BaseP Msg Reader ReaderP Num Lexer Obj ReadObj Bits Filters Env Getters Crypt Rc4 Md5 Stream GetObj Regex Xref Security Load
  SpecLex SpecLexP SpecObj SpecRead ReadEx SpecFetch FetchEx SpecStream StreamP StreamObjP StreamEx SpecLook LookP SpecCrypt CryptP SpecSecurity SecurityP CryptObjP.
From Coq Require Import Strings.String Sorting.Permutation.

(** MD5, and the identity as block cipher *)
Definition E5 : env :=
  {| e_md5 := Md5.md5; e_aes_dec := fun _ b => b; e_zlib := fun _ => None; e_lzw := fun b => (b, false);
     e_tiff_lzw := fun b => (b, false); e_fmt := fun _ => []; e_verbose := Some false |}.
Lemma md5_16 : forall x, List.length (e_md5 E5 x) = 16%nat.
Proof. intros x. cbn [e_md5 E5]. unfold Md5.md5. destruct (Md5.md5_blocks _ _ _) as [[[a b] c] d]. reflexivity. Qed.

(** *** C37 *)
Lemma C37_ex : let key := object_key_of Md5.md5 false (lit "abcde") 7 1 in
  rc4_encrypted key (lit "Attack at dawn") (rc4 key (lit "Attack at dawn")) /\
  rc4 key (lit "Attack at dawn") <> lit "Attack at dawn" /\ List.length key = 10%nat.
Proof.
  intros key. split; [apply rc4_encrypts; intros Q; apply (f_equal (@List.length byte)) in Q; vm_compute in Q; discriminate |].
  split; [vm_compute; discriminate | vm_compute; reflexivity].
Qed.
(** the test vector of the literature *)
Lemma C37_vector : rc4_encrypted (lit "Key") (lit "Plaintext") [xbb; xf3; x16; xe8; xd9; x40; xaf; x0a; xd3].
Proof. replace [xbb; xf3; x16; xe8; xd9; x40; xaf; x0a; xd3] with (rc4 (lit "Key") (lit "Plaintext")) by (vm_compute; reflexivity). apply rc4_encrypts. discriminate. Qed.

(** *** C38 *)
Lemma bv_zb_xor : forall a b, bv (bxor a b) = Z.lxor (bv a) (bv b).
Proof. exact bv_bxor. Qed.
Definition aes_iv : bytes := lit "0123456789abcdef".
Definition aes_full : bytes := lit "sixteen byte" ++ repeat (zb 4) 4.
Lemma aes_ex : aes_encrypted (fun b => b) (lit "sixteen byte") (aes_iv ++ xor_bytes aes_full aes_iv) /\
  block_inverse (fun b => b) (e_aes_dec E5 (object_key_of Md5.md5 true (lit "0123456789abcdef") 7 0)).
Proof.
  split; [| intros b H; split; [assumption | reflexivity]].
  exists aes_iv, aes_full, (xor_bytes aes_full aes_iv). split.
  { apply (pad_intro (lit "sixteen byte") 4); [lia | reflexivity]. } split; [| reflexivity].
  rewrite <- (app_nil_r aes_full) at 1. rewrite <- (app_nil_r (xor_bytes aes_full aes_iv)).
  apply (cbc_cons (fun b => b) aes_iv aes_full (xor_bytes aes_full aes_iv) [] []); [| apply cbc_nil; reflexivity].
  split; [reflexivity |]. split; [reflexivity |]. split; [reflexivity |].
  intros m x y z Hx Hy Hz. rewrite <- bv_bxor. f_equal.
  do 16 (destruct m as [| m]; [vm_compute in Hx, Hy, Hz; injection Hx as <-; injection Hy as <-; injection Hz as <-; vm_compute; reflexivity |]). destruct m; discriminate.
Qed.
Lemma aes_refuted : exists E key enc plain cipher, (forall x, List.length (e_md5 E x) = 16%nat) /\ List.length key = 16%nat /\
  block_inverse enc (e_aes_dec E (object_key_of (e_md5 E) true key 7 0)) /\ aes_encrypted enc plain cipher /\
  exists out, new_decryptor E (CFAES key) 7 0 cipher = Ok out /\ out <> plain.
Proof.
  exists E5, (lit "0123456789abcdef"), (fun b => b), (lit "sixteen byte"), (aes_iv ++ xor_bytes aes_full aes_iv).
  split; [exact md5_16 |]. split; [reflexivity |]. split; [apply aes_ex |]. split; [apply aes_ex |].
  eexists. split; [vm_compute; reflexivity | discriminate].
Qed.
(** the data is never what was encrypted *)
Lemma aes_never : forall E key enc n g plain cipher, (forall x, List.length (e_md5 E x) = 16%nat) -> (11 <= List.length key)%nat ->
  block_inverse enc (e_aes_dec E (object_key_of (e_md5 E) true key n g)) -> aes_encrypted enc plain cipher ->
  new_decryptor E (CFAES key) n g cipher <> Ok plain.
Proof.
  intros E key enc n g plain cipher M L B (iv & full & c & P & C & ->) Q.
  rewrite (aes_decryptor E key n g enc iv plain full c M L B P C) in Q. inversion P; subst.
  injection Q as Q. apply (f_equal (@List.length byte)) in Q. rewrite !app_length, repeat_length in Q. lia.
Qed.

(** *** encryption dictionaries in the trailer *)
Definition enc_state (enc : dict) (id : bytes) : pst :=
  with_trailer [(lit "Encrypt", ODict enc); (lit "ID", OArr [OStr id])] (new_parser []).
Definition enc_dict (v r l : Z) (o u : bytes) (p : Z) : dict :=
  [(lit "Filter", OName (lit "Standard")); (lit "V", ONum (num_of_Z v)); (lit "R", ONum (num_of_Z r)); (lit "Length", ONum (num_of_Z l));
   (lit "O", OStr o); (lit "U", OStr u); (lit "P", ONum (num_of_Z p))].
Definition enc_params (v r : Z) (n : nat) (o u : bytes) (p : Z) (id : bytes) : params :=
  {| pr_v := v; pr_r := r; pr_n := n; pr_o := o; pr_u := u; pr_p := p; pr_meta := true; pr_id := id |}.
Lemma enc_reads : forall d id, reads [] (enc_state d id).
Proof. intros. vm_compute. repeat split; discriminate. Qed.
Lemma enc_offsets : forall d id, offsets_ok (pxref (enc_state d id)).
Proof. intros d id n e H. discriminate. Qed.
Ltac dir := eexists; split; [apply v_direct; discriminate |]; first [reflexivity | eexists; split; [reflexivity | vm_compute; reflexivity]].
Lemma enc_standard : forall v r n l o u p id, In v [2; 4] -> In r [2; 3; 4] -> l = 8 * Z.of_nat n -> (5 <= n <= 16)%nat -> In p [-4] ->
  standard E5 [] (enc_state (enc_dict v r l o u p) id) (ptrailer (enc_state (enc_dict v r l o u p) id)) (enc_dict v r l o u p) (enc_params v r n o u p id).
Proof.
  intros v r n l o u p id V R L N P.
  assert (IL : forall z, In z [-4; 2; 3; 4] \/ (40 <= z <= 128 /\ z mod 8 = 0) -> num_int (num_of_Z z) = z).
  { intros z [H | [H H']].
    - cbn in H. destruct H as [<- | [<- | [<- | [<- | []]]]]; vm_compute; reflexivity.
    - assert (D : In z (map (fun k => 8 * Z.of_nat k) (seq 5 12))).
      { apply in_map_iff. exists (Z.to_nat (z / 8)). pose proof (Z_div_mod_eq_full z 8) as D. split; [rewrite Z2Nat.id; [lia | apply Z.div_pos; lia] |].
        apply in_seq. assert (5 <= z / 8 <= 16) by (split; [apply Z.div_le_lower_bound; lia | apply Z.div_le_upper_bound; lia]). lia. }
      revert D. change (map (fun k => 8 * Z.of_nat k) (seq 5 12)) with [40; 48; 56; 64; 72; 80; 88; 96; 104; 112; 120; 128].
      intros D. cbn in D. repeat (destruct D as [<- | D]; [vm_compute; reflexivity |]). destruct D. }
  assert (V' : v = 1 \/ v = 2 \/ v = 4) by (cbn in V; destruct V as [<- | [<- | []]]; auto).
  assert (R' : 2 <= r <= 4) by (cbn in R; destruct R as [<- | [<- | [<- | []]]]; lia).
  unfold standard. cbn [pr_v pr_r pr_n pr_o pr_u pr_p pr_meta pr_id enc_params].
  split; [dir |]. split; [dir |].
  split; [eexists; split; [apply v_direct; discriminate |]; eexists; split; [reflexivity |]; rewrite IL; [reflexivity | left; cbn in *; tauto] |].
  split; [exact V' |].
  split; [eexists; split; [apply v_direct; discriminate |]; eexists; split; [reflexivity |]; rewrite IL; [reflexivity | left; cbn in *; tauto] |].
  split; [exact R' |].
  split.
  { exists l. split.
    - right. split; [cbn in V; destruct V as [<- | [<- | []]]; discriminate |]. left.
      eexists; split; [apply v_direct; discriminate |]; eexists; split; [reflexivity |]; rewrite IL; [reflexivity |].
      right. subst l. split; [lia |]. rewrite Z.mul_comm. apply Z_mod_mult.
    - subst l. rewrite Z.mul_comm, Z_div_mult by lia. lia. }
  split; [dir |]. split; [dir |].
  split; [eexists; split; [apply v_direct; discriminate |]; eexists; split; [reflexivity |]; rewrite IL; [reflexivity | left; cbn in *; tauto] |].
  split; [right; split; [left; apply v_none | reflexivity] |].
  eexists. split; [dir | dir].
Qed.

(** *** C39: revision 2 with V 2 and Length 128 *)
Definition o32 : bytes := lit "owner".
Definition u39 : bytes := Eval vm_compute in rc4 (file_key_of Md5.md5 2 true o32 (-4) (lit "id") [] 5) pad32.
Definition p39 : pst := enc_state (enc_dict 2 2 128 o32 u39 (-4)) (lit "id").
Lemma C39_length_refuted : exists p enc pr, reads [] p /\ offsets_ok (pxref p) /\ standard E5 [] p (ptrailer p) enc pr /\ pr_r pr = 2 /\
  user_entry Md5.md5 2 (pr_id pr) (file_key_of Md5.md5 2 (pr_meta pr) (pr_o pr) (pr_p pr) (pr_id pr) [] 5) (pr_u pr) /\
  forall fuel, exists p', set_password fuel E5 [] [] p = Ok (Some EncryptionPasswordError, p').
Proof.
  exists p39, (enc_dict 2 2 128 o32 u39 (-4)), (enc_params 2 2 16 o32 u39 (-4) (lit "id")).
  split; [apply enc_reads |]. split; [apply enc_offsets |].
  split; [apply enc_standard; [cbn; tauto | cbn; tauto | reflexivity | lia | cbn; tauto] |].
  split; [reflexivity |]. split.
  - cbn [pr_id pr_meta pr_o pr_p pr_u enc_params]. unfold user_entry. change (2 =? 2) with true. cbv iota.
    replace u39 with (rc4 (file_key_of Md5.md5 2 true o32 (-4) (lit "id") [] 5) pad32) by (vm_compute; reflexivity).
    apply rc4_encrypts. intros Q. apply (f_equal (@List.length byte)) in Q. vm_compute in Q. discriminate.
  - intros fuel. eexists. vm_compute. reflexivity.
Qed.

(** *** C40 *)
Definition id40 : bytes := lit "435".
Definition k40 : bytes := Eval vm_compute in file_key_of Md5.md5 3 true o32 (-4) id40 [] 16.
Definition w40 : bytes := Eval vm_compute in rc4_rounds 20 0 k40 (Md5.md5 (pad32 ++ id40)).
Lemma w40_entry : user_entry Md5.md5 3 id40 (file_key_of Md5.md5 3 true o32 (-4) id40 [] 16) w40.
Proof.
  replace (file_key_of Md5.md5 3 true o32 (-4) id40 [] 16) with k40 by (vm_compute; reflexivity).
  unfold user_entry. change (3 =? 2) with false. cbv iota.
  replace w40 with (rc4_rounds 20 (Z.of_nat 0) k40 (Md5.md5 (pad32 ++ id40))) by (vm_compute; reflexivity).
  apply (rc4_rounds_spec k40 (Md5.md5 (pad32 ++ id40)) ltac:(discriminate) 20 0); [lia | apply rt_zero].
Qed.
(** U of 32 bytes *)
Definition pr40 (u : bytes) : params := enc_params 2 3 16 o32 u (-4) id40.
Definition p40 (u : bytes) : pst := enc_state (enc_dict 2 3 128 o32 u (-4)) id40.
Lemma standard40 : forall u, standard E5 [] (p40 u) (ptrailer (p40 u)) (enc_dict 2 3 128 o32 u (-4)) (pr40 u).
Proof. intros u. apply enc_standard; [cbn; tauto | cbn; tauto | reflexivity | lia | cbn; tauto]. Qed.
Lemma C40_ex : let u := w40 ++ repeat x00 16 in let p := p40 u in
  reads [] p /\ offsets_ok (pxref p) /\ (forall x, List.length (e_md5 E5 x) = 16%nat) /\
  standard E5 [] p (ptrailer p) (enc_dict 2 3 128 o32 u (-4)) (pr40 u) /\ u_full (pr40 u) /\
  user_password E5 (pr40 u) [] /\ cf_good E5 [] p (pr40 u) [] (enc_dict 2 3 128 o32 u (-4)) /\ ~ user_password E5 (pr40 u) (lit "guess").
Proof.
  intros u p. split; [apply enc_reads |]. split; [apply enc_offsets |]. split; [exact md5_16 |]. split; [apply standard40 |].
  split; [right; vm_compute; discriminate |]. split; [exists w40; split; [exact w40_entry | reflexivity] |].
  split; [intros Q; discriminate |].
  intros P. assert (S := standard40 u).
  destruct (password_accepted E5 [] p (lit "guess") _ _ (enc_reads _ _) (enc_offsets _ _) md5_16 S P ltac:(intros Q; discriminate)) as (h & f0 & _ & H).
  destruct (H f0 (le_n _)) as (p' & R & _). vm_compute in R. discriminate.
Qed.
(** U of 15 bytes, the missing one taken for a zero *)
Lemma C40_short_refuted : exists p enc pr, reads [] p /\ offsets_ok (pxref p) /\ (forall x, List.length (e_md5 E5 x) = 16%nat) /\
  standard E5 [] p (ptrailer p) enc pr /\ ~ user_password E5 pr [] /\
  forall fuel, exists p', set_password fuel E5 [] [] p = Ok (None, p').
Proof.
  exists (p40 (firstn 15 w40)), (enc_dict 2 3 128 o32 (firstn 15 w40) (-4)), (pr40 (firstn 15 w40)).
  split; [apply enc_reads |]. split; [apply enc_offsets |]. split; [exact md5_16 |]. split; [apply standard40 |].
  split; [| intros fuel; eexists; vm_compute; reflexivity].
  intros P. pose proof (user_password_full _ _ _ md5_16 P) as [Q | Q]; [discriminate | vm_compute in Q; apply Q; reflexivity].
Qed.
Lemma C40_unsupported_ex : exists p enc, reads [] p /\ offsets_ok (pxref p) /\
  typed E5 [] p is_dict (entry (ptrailer p) (lit "Encrypt")) enc /\ exists v, value E5 [] p (entry enc (lit "Filter")) v /\ v <> Some (OName (lit "Standard")).
Proof.
  exists (enc_state [(lit "Filter", OName (lit "Adobe.PubSec"))] []), [(lit "Filter", OName (lit "Adobe.PubSec"))].
  split; [apply enc_reads |]. split; [apply enc_offsets |]. split; [dir |]. eexists. split; [apply v_direct; discriminate | discriminate].
Qed.

(** *** C41 *)
Definition crash : bytes := lit "xref 0 0 trailer<</Encrypt<</Filter/Standard/V 1/R 3/O()/U()/P 0>>/ID[()]>>".
Lemma crash_refuted : forall E ord pw fuel, (forall x, Permutation x (ord x)) -> (0 < fuel)%nat -> load fuel E ord crash pw (new_parser crash) = Panic.
Proof.
  intros E ord pw fuel P L. destruct fuel as [| fuel]; [lia |].
  assert (F : exists p1, find_objects (S fuel) E crash (new_parser crash) = Ok ([], p1) /\ pxref p1 = [] /\ ptrailer p1 = [] /\ psh p1 = new_sechandler).
  { eexists. split; [vm_compute; reflexivity |]. repeat split. }
  destruct F as (p1 & F & X1 & T1 & S1). unfold load, bind at 1. rewrite F.
  rewrite (Permutation_nil (P [])). destruct p1 as [r1 x1 t1 s1]. cbn in X1, T1, S1. subst. vm_compute. reflexivity.
Qed.
(** *** C41: a document in which everything can be looked up *)
Lemma doc_targets : forall n, exists o, target E0 doc doc_state n o.
Proof.
  intros n. assert (D : In n [1; 2; 3; 4; 5; 6; 7; 8] \/ ~ In n [1; 2; 3; 4; 5; 6; 7; 8]) by (destruct (in_dec Z.eq_dec n [1; 2; 3; 4; 5; 6; 7; 8]); auto).
  destruct D as [D | D].
  - cbn in D. repeat (destruct D as [<- | D]; [eexists; exists 9%nat; eexists; vm_compute; reflexivity |]). destruct D.
  - exists (new_iobj n). exists 2%nat. eexists.
    assert (X : xget n (pxref doc_state) = None).
    { unfold xget. cbn [doc_state pxref with_xref doc_xref mget].
      repeat match goal with |- (if ?a =? ?b then _ else _) = _ => destruct (Z.eqb_spec a b) as [-> |]; [exfalso; apply D; cbn; tauto |] end. reflexivity. }
    unfold Resolve, restoring, bind. cbn [resolve zmem existsb]. unfold bind. cbn [get_object]. rewrite X. reflexivity.
Qed.

(** *** C42 *)
Definition o42 : bytes := lit "o".
Definition u42 : bytes := Eval vm_compute in rc4 (file_key_of Md5.md5 2 true o42 (-4) (lit "i") [] 5) pad32.
Definition hexd (n : Z) : byte := nth (Z.to_nat n) (lit "0123456789abcdef") x00.
Definition hex (b : bytes) : bytes := flat_map (fun x => [hexd (bv x / 16); hexd (bv x mod 16)]) b.
Definition xref_doc : bytes :=
  lit "1 0 obj<</Type/XRef/W[1 1 1]/Index[1 1 5 1]/Encrypt<</Filter/Standard/V 1/R 2/O(o)/U<" ++ hex u42 ++ lit ">/P -4>>/ID[(i)]>>stream" ++
  x0a :: [x01; x00; x00] ++ x0a :: lit "endstream endobj".
Lemma xref_decrypted : exists p', load 9 E5 (fun x => x) xref_doc [] (new_parser xref_doc) = Ok (None, p') /\
  exists o p'', GetObject 9 E5 xref_doc 1 p' = Ok (o, p'') /\ istream o <> Some [x01; x00; x00].
Proof. eexists. split; [vm_compute; reflexivity |]. eexists. eexists. split; [vm_compute; reflexivity |]. discriminate. Qed.
Lemma C39_ex : object_key_of Md5.md5 true (lit "abcde") 258 1 = object_key_of Md5.md5 true (lit "abcde") (258 + 2 ^ 24) (1 + 2 ^ 16) /\
  object_key_of Md5.md5 true (lit "abcde") 258 1 <> object_key_of Md5.md5 false (lit "abcde") 258 1.
Proof. split; [vm_compute; reflexivity | vm_compute; discriminate]. Qed.
Lemma no_xref_targets : forall d id n, exists o, target E5 [] (enc_state d id) n o.
Proof. intros d id n. exists (new_iobj n), 2%nat. eexists. reflexivity. Qed.
Lemma C41_ex : let p := p40 (w40 ++ repeat x00 16) in
  (forall n, exists o, target E5 [] p n o) /\
  (exists enc pr, standard E5 [] p (ptrailer p) enc pr) /\
  (forall enc pr, standard E5 [] p (ptrailer p) enc pr -> u_long pr /\ (pr_r pr = 4 -> lengths_ok E5 [] p enc)).
Proof.
  intros p. split; [apply no_xref_targets |]. pose proof (standard40 (w40 ++ repeat x00 16)) as S.
  split; [eexists; eexists; exact S |]. intros enc pr S'.
  assert (W : reads [] p) by apply enc_reads. assert (O : offsets_ok (pxref p)) by apply enc_offsets.
  assert (enc = enc_dict 2 3 128 o32 (w40 ++ repeat x00 16) (-4)).
  { destruct S as (D & _), S' as (D' & _). eapply (typed_det E5 [] p _ is_dict); [apply is_dict_fun | exact D' | exact D]. } subst enc.
  destruct S as (_ & _ & _ & _ & R & _ & _ & _ & U & _), S' as (_ & _ & _ & _ & R' & _ & _ & _ & U' & _).
  assert (pr_r pr = 3) by (eapply (typed_det E5 [] p _ is_int); [apply is_int_fun | exact R' | exact R]).
  assert (pr_u pr = w40 ++ repeat x00 16) by (eapply (typed_det E5 [] p _ is_string); [apply is_string_fun | exact U' | exact U]).
  split; [| intros; lia]. right. rewrite H0. vm_compute. discriminate.
Qed.
Definition crypt_handler : sechandler := {| sh_stream := CFNone; sh_string := CFRC4 (lit "abcde"); sh_file := CFNone; sh_filters := [] |}.
Definition crypt_bytes : bytes := Eval vm_compute in rc4 (object_key_of Md5.md5 false (lit "abcde") 1 2) (lit "secret").
Definition crypt_text : bytes := Eval vm_compute in "<"%byte :: hex crypt_bytes ++ [">"%byte].
Definition crypt_file : bytes := lit "1 2 obj" ++ crypt_text ++ lit "endobj".
Lemma C42_strings_ex : let e := new_xentry 0 2 1 in
  let p := with_sh crypt_handler (with_xref [(1, e)] (new_parser crypt_file)) in
  reads crypt_file p /\ xget 1 (pxref p) = Some e /\ object_head (lit "1 2 obj") 1 2 /\ obj_text crypt_text (OStr crypt_bytes) /\
  zdrop 0 crypt_file = lit "1 2 obj" ++ [] ++ crypt_text ++ [] ++ lit "endobj" ++ [] /\
  (forall s, new_decryptor E5 (sh_string (psh p)) 1 2 s = Ok (rc4 (object_key_of Md5.md5 false (lit "abcde") 1 2) s)) /\
  map_strings (rc4 (object_key_of Md5.md5 false (lit "abcde") 1 2)) (OStr crypt_bytes) = OStr (lit "secret").
Proof.
  intros e p. split; [vm_compute; repeat split; discriminate |]. split; [reflexivity |]. split.
  { apply (oh_intro [] (lit "1") 1 (lit " ") (lit "2") 2 (lit " ")).
    - apply gap_nil.
    - nat_lit.
    - apply gap_ws; [wsb|apply gap_nil].
    - discriminate.
    - nat_lit.
    - apply gap_ws; [wsb|apply gap_nil]. }
  split.
  { apply (ot_hex (hex crypt_bytes) (flat_map (fun x => [Z.to_nat (bv x / 16); Z.to_nat (bv x mod 16)]) crypt_bytes) crypt_bytes).
    - cbv [hex crypt_bytes flat_map app]. repeat (apply hd_digit; [first [left; reflexivity | right; reflexivity] |]). apply hd_nil.
    - cbv [crypt_bytes flat_map app]. repeat (apply hp_pair; [reflexivity |]). apply hp_nil. }
  split; [reflexivity |]. split.
  - intros s. cbn [new_decryptor psh with_sh p crypt_handler sh_string]. rewrite (object_key_spec E5 (lit "abcde") 1 2 false).
    unfold rc4_decrypt. change (e_md5 E5) with Md5.md5.
    replace (_ && _) with true by (vm_compute; reflexivity). reflexivity.
  - vm_compute. reflexivity.
Qed.
(** an indirect encryption dictionary *)
Definition exempt_doc : bytes :=
  lit "1 0 obj<</Filter/Standard/V 1/R 2/O(o)/U<" ++ hex u42 ++ lit ">/P -4>>endobj xref 0 0 trailer<</Encrypt 1 0 R/ID[(i)]>>".
Lemma C42_dictionary_ex : exists p', load 9 E5 (fun x => x) exempt_doc [] (new_parser exempt_doc) = Ok (None, p') /\
  entry (ptrailer p') (lit "Encrypt") = Some (ORef 1 0) /\ exists e, xget 1 (pxref p') = Some e.
Proof. eexists. split; [vm_compute; reflexivity |]. split; [reflexivity |]. eexists. reflexivity. Qed.
