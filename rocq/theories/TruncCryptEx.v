(** TruncCryptEx.v -- witnesses for C127. *)
From Verif Require Import Base BaseP Msg Reader Num Obj Env Rc4 Crypt SpecTrunc SpecCrypt CryptP CryptEx TruncCryptP.
From Coq Require Import Strings.String.
Local Open Scope Z_scope.

(** An initialisation vector, a block and a half; the rest is missing. *)
Definition cut_cipher : bytes := aes_iv ++ repeat x41 24.
Definition cut_rest : bytes := repeat x41 8.
Definition cut_key : bytes := lit "0123456789abcdef".
Definition cut_whole : bytes := Eval vm_compute in match new_decryptor E5 (CFAES cut_key) 7 0 (cut_cipher ++ cut_rest) with Ok y => y | _ => [] end.
Lemma cut_refuted : exists E key n g a b x y, (forall x, List.length (e_md5 E x) = 16%nat) /\ (11 <= List.length key)%nat /\ e_verbose E <> None /\
  new_decryptor E (CFAES key) n g a = Ok x /\ new_decryptor E (CFAES key) n g (a ++ b) = Ok y /\ ~ agrees_but 16 1 b x y.
Proof.
  exists E5, cut_key, 7, 0, cut_cipher, cut_rest, cut_cipher, cut_whole.
  split; [exact md5_16|]. split; [vm_compute; lia|]. split; [discriminate|].
  split; [apply aes_cut; [discriminate|vm_compute; discriminate]|]. split; [vm_compute; reflexivity|].
  intros (u & s & s' & E1 & E2 & H1 & _).
  assert (L : zlen u + zlen s = 40) by (rewrite <- zlen_app, <- E1; reflexivity).
  assert (Lu : (24 <= List.length u)%nat) by (unfold zlen in *; lia).
  assert (Q : nth 16 cut_cipher x00 = nth 16 cut_whole x00) by (rewrite E1, E2, !app_nth1 by lia; reflexivity).
  vm_compute in Q. discriminate.
Qed.

Lemma C127_ex : zlen (aes_iv ++ repeat x41 16) mod 16 = 0 /\ zlen ((aes_iv ++ repeat x41 16) ++ repeat x41 16) mod 16 = 0 /\
  new_decryptor E5 (CFAES cut_key) 7 0 (aes_iv ++ repeat x41 16) = Ok (firstn 32 cut_whole) /\
  new_decryptor E5 (CFAES cut_key) 7 0 ((aes_iv ++ repeat x41 16) ++ repeat x41 16) = Ok cut_whole /\ firstn 32 cut_whole <> aes_iv ++ repeat x41 16 /\
  zlen cut_cipher mod 16 <> 0.
Proof. do 4 (split; [vm_compute; reflexivity|]). split; vm_compute; discriminate. Qed.
