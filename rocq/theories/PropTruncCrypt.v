(** PropTruncCrypt.v -- C127: encrypted data of which the end is missing.
    Only statements; the proofs are in TruncCryptP.v, the witnesses in TruncCryptEx.v. *)
From Verif Require Import Base Msg Reader Num Obj Env Crypt SpecTrunc SpecCrypt CryptEx TruncCryptP TruncCryptEx.
From Coq Require Import Strings.String.
Local Open Scope Z_scope.

(** ** C127.  The full statement: what is decrypted of [a] agrees with what is
    decrypted of [a ++ b], with RC4 in full and with AES but for the last block.
    With RC4 it holds. *)
Theorem C127_rc4 : forall E key n g a b, (forall x, List.length (e_md5 E x) = 16%nat) -> exists x s,
  new_decryptor E (CFRC4 key) n g a = Ok x /\ new_decryptor E (CFRC4 key) n g (a ++ b) = Ok (x ++ s) /\ zlen x = zlen a /\ zlen s = zlen b.
Proof. exact rc4_truncated. Qed.
Print Assumptions C127_rc4.

(** With AES it fails: data that ends inside of a block is left as it is, the
    blocks in front included. *)
Theorem C127_aes_refuted : exists E key n g a b x y, (forall x, List.length (e_md5 E x) = 16%nat) /\ (11 <= List.length key)%nat /\ e_verbose E <> None /\
  new_decryptor E (CFAES key) n g a = Ok x /\ new_decryptor E (CFAES key) n g (a ++ b) = Ok y /\ ~ agrees_but 16 1 b x y.
Proof. exact cut_refuted. Qed.
Print Assumptions C127_aes_refuted.

Theorem C127_inside_partial : forall E key n g a, e_verbose E <> None -> zlen a mod 16 <> 0 -> new_decryptor E (CFAES key) n g a = Ok a.
Proof. exact aes_cut. Qed.
Print Assumptions C127_inside_partial.

(** It holds for a cut between two blocks. *)
Theorem C127_aes_partial : forall E key n g a b, (forall x, List.length (e_md5 E x) = 16%nat) -> (11 <= List.length key)%nat ->
  zlen a mod 16 = 0 -> zlen (a ++ b) mod 16 = 0 ->
  exists x s, new_decryptor E (CFAES key) n g a = Ok x /\ new_decryptor E (CFAES key) n g (a ++ b) = Ok (x ++ s).
Proof. exact aes_truncated. Qed.
Print Assumptions C127_aes_partial.

Example C127_example : zlen (aes_iv ++ repeat x41 16) mod 16 = 0 /\ zlen ((aes_iv ++ repeat x41 16) ++ repeat x41 16) mod 16 = 0 /\
  new_decryptor E5 (CFAES cut_key) 7 0 (aes_iv ++ repeat x41 16) = Ok (firstn 32 cut_whole) /\
  new_decryptor E5 (CFAES cut_key) 7 0 ((aes_iv ++ repeat x41 16) ++ repeat x41 16) = Ok cut_whole /\ firstn 32 cut_whole <> aes_iv ++ repeat x41 16 /\
  zlen cut_cipher mod 16 <> 0.
Proof. exact C127_ex. Qed.
