(** TruncCryptP.v -- decryption of data of which the end is missing (C127). *)
From Verif Require Import Base BaseP Msg Reader Num Obj Env Rc4 Crypt SpecTrunc SpecCrypt CryptP.
From Coq Require Import Strings.String.
Local Open Scope Z_scope.

(** ** RC4 *)
Lemma prga_more : forall n m i j s, exists t, prga (n + m) i j s = prga n i j s ++ t /\ List.length t = m.
Proof.
  induction n as [|n IH]; intros m i j s; cbn [Nat.add prga app].
  - exists (prga m i j s). split; [reflexivity|]. revert i j s. induction m as [|m IHm]; intros i j s; cbn [prga List.length]; [reflexivity|]. rewrite IHm. reflexivity.
  - destruct (IH m ((i + 1) mod 256) ((j + bv (sget s ((i + 1) mod 256))) mod 256) (sswap s ((i + 1) mod 256) ((j + bv (sget s ((i + 1) mod 256))) mod 256))) as (t & E & L).
    exists t. rewrite E. auto.
Qed.
Lemma prga_len : forall n i j s, List.length (prga n i j s) = n.
Proof. intros n i j s. destruct (prga_more 0 n i j s) as (t & E & L). cbn [Nat.add prga app] in E. rewrite E. exact L. Qed.

Lemma xor_app : forall a b s t, List.length s = List.length a -> xor_bytes (a ++ b) (s ++ t) = xor_bytes a s ++ xor_bytes b t.
Proof.
  induction a as [|x a IH]; intros b [|y s] t L; try discriminate; [reflexivity|]. cbn [app xor_bytes]. rewrite IH by (cbn in L; lia). reflexivity.
Qed.
Lemma xor_len : forall a s, List.length s = List.length a -> List.length (xor_bytes a s) = List.length a.
Proof. induction a as [|x a IH]; intros [|y s] L; try discriminate; [reflexivity|]. cbn [xor_bytes List.length]. rewrite IH by (cbn in L; lia). reflexivity. Qed.

Lemma rc4_truncated : forall E key n g a b, (forall x, List.length (e_md5 E x) = 16%nat) -> exists x s,
  new_decryptor E (CFRC4 key) n g a = Ok x /\ new_decryptor E (CFRC4 key) n g (a ++ b) = Ok (x ++ s) /\ zlen x = zlen a /\ zlen s = zlen b.
Proof.
  intros E key n g a b M. cbn [new_decryptor]. rewrite (object_key_spec E key n g false).
  pose proof (object_key_length E false key n g M) as L. set (k := object_key_of (e_md5 E) false key n g) in *.
  unfold rc4_decrypt. replace ((1 <=? zlen k) && (zlen k <=? 256)) with true.
  2:{ symmetry. apply andb_true_iff. unfold zlen. split; apply Z.leb_le; lia. }
  unfold rc4, rc4_stream. rewrite app_length. destruct (prga_more (List.length a) (List.length b) 0 0 (ksa 256 k 0 0 sbox0)) as (t & -> & Lt).
  rewrite xor_app by apply prga_len. exists (xor_bytes a (prga (List.length a) 0 0 (ksa 256 k 0 0 sbox0))), (xor_bytes b t).
  split; [reflexivity|]. split; [reflexivity|]. unfold zlen. rewrite !xor_len by (auto; apply prga_len). auto.
Qed.

(** ** AES *)
Lemma cbc_more : forall dec n m iv a b, List.length a = (16 * n)%nat ->
  exists s, cbc_decrypt (n + m) dec iv (a ++ b) = cbc_decrypt n dec iv a ++ s.
Proof.
  intros dec. induction n as [|n IH]; intros m iv a b L.
  - exists (cbc_decrypt m dec iv b). destruct a; [reflexivity|cbn in L; lia].
  - cbn [Nat.add cbc_decrypt]. rewrite firstn_app, skipn_app. replace (16 - List.length a)%nat with 0%nat by lia. rewrite firstn_O, app_nil_r, skipn_O.
    destruct (IH m (firstn 16 a) (skipn 16 a) b) as (s & E); [rewrite skipn_length; lia|]. exists s. rewrite E, app_assoc. reflexivity.
Qed.

Lemma aes_key : forall E key n g, (forall x, List.length (e_md5 E x) = 16%nat) -> (11 <= List.length key)%nat -> zlen (object_key E key n g (lit "sAlT")) = 16.
Proof. intros E key n g M K. rewrite (object_key_spec E key n g true). unfold zlen. rewrite object_key_length by auto. lia. Qed.

Lemma aes_blocks : forall E k data, zlen k = 16 -> 16 <= zlen data -> zlen data mod 16 = 0 ->
  aes_decrypt E k data = Ok (firstn 16 data ++ cbc_decrypt (Nat.div (List.length (skipn 16 data)) 16) (e_aes_dec E k) (firstn 16 data) (skipn 16 data)).
Proof.
  intros E k data K L Md. unfold aes_decrypt. destruct (zlen data <=? 16) eqn:E1.
  - apply Z.leb_le in E1. unfold zlen in *. rewrite skipn_length. replace (List.length data - 16)%nat with 0%nat by lia.
    rewrite firstn_all2 by lia. cbn. rewrite app_nil_r. reflexivity.
  - rewrite K. cbn [Z.eqb orb negb]. replace ((zlen data - 16) mod 16) with 0; [reflexivity|].
    replace (zlen data - 16) with (zlen data + (-1) * 16) by lia. rewrite Z.mod_add by lia. auto.
Qed.

Lemma aes_truncated : forall E key n g a b, (forall x, List.length (e_md5 E x) = 16%nat) -> (11 <= List.length key)%nat ->
  zlen a mod 16 = 0 -> zlen (a ++ b) mod 16 = 0 ->
  exists x s, new_decryptor E (CFAES key) n g a = Ok x /\ new_decryptor E (CFAES key) n g (a ++ b) = Ok (x ++ s).
Proof.
  intros E key n g a b M K Ma Mb. cbn [new_decryptor]. pose proof (aes_key E key n g M K) as KL. set (k := object_key E key n g (lit "sAlT")) in *.
  pose proof (zlen_nonneg _ a). pose proof (zlen_nonneg _ b).
  destruct (Z.lt_ge_cases (zlen a) 16) as [H1|H1].
  - assert (zlen a = 0) by (rewrite Z.mod_small in Ma by lia; exact Ma). assert (a = []) by (destruct a; [reflexivity|rewrite zlen_cons in *; pose proof (zlen_nonneg _ a); lia]). subst a.
    exists []. cbn [app]. unfold aes_decrypt at 1. cbn. destruct (Z.lt_ge_cases (zlen b) 16) as [J2|J2].
    + exists b. split; [reflexivity|]. unfold aes_decrypt. destruct (zlen b <=? 16) eqn:E1; [reflexivity|apply Z.leb_gt in E1; lia].
    + rewrite (aes_blocks E k b KL J2 Mb). eexists. split; reflexivity.
  - rewrite (aes_blocks E k a KL H1 Ma), (aes_blocks E k (a ++ b) KL) by (auto; rewrite zlen_app; lia).
    assert (L16 : (16 <= List.length a)%nat) by (unfold zlen in *; lia).
    assert (F : firstn 16 (a ++ b) = firstn 16 a) by (rewrite firstn_app; replace (16 - List.length a)%nat with 0%nat by lia; apply app_nil_r).
    assert (S : skipn 16 (a ++ b) = skipn 16 a ++ b) by (rewrite skipn_app; replace (16 - List.length a)%nat with 0%nat by lia; reflexivity).
    rewrite F, S. set (iv := firstn 16 a). set (body := skipn 16 a).
    assert (BL : exists q, List.length body = (16 * q)%nat).
    { exists (Z.to_nat (zlen a / 16) - 1)%nat. unfold body. rewrite skipn_length. pose proof (Z.div_mod (zlen a) 16 ltac:(lia)) as Q. unfold zlen in *. lia. }
    destruct BL as (q & BL).
    assert (D1 : Nat.div (List.length body) 16 = q) by (rewrite BL, Nat.mul_comm; apply Nat.div_mul; lia).
    assert (D2 : Nat.div (List.length (body ++ b)) 16 = (q + Nat.div (List.length b) 16)%nat).
    { rewrite app_length, BL, Nat.mul_comm, Nat.add_comm, Nat.div_add, Nat.add_comm by lia. reflexivity. }
    rewrite D1, D2. destruct (cbc_more (e_aes_dec E k) q (Nat.div (List.length b) 16) iv body b BL) as (s & Q). rewrite Q.
    eexists. exists s. split; [reflexivity|]. rewrite app_assoc. reflexivity.
Qed.

(** Data that ends inside of a block is not decrypted at all. *)
Lemma aes_cut : forall E key n g a, e_verbose E <> None -> zlen a mod 16 <> 0 -> new_decryptor E (CFAES key) n g a = Ok a.
Proof.
  intros E key n g a V H. cbn [new_decryptor]. unfold aes_decrypt. destruct (zlen a <=? 16) eqn:E1; [reflexivity|].
  assert (D : debug E = Ok tt) by (unfold debug; destruct (e_verbose E); [reflexivity|congruence]). rewrite D. cbn [rbind].
  destruct (negb _) eqn:E2; [reflexivity|].
  replace (zlen a - 16) with (zlen a + (-1) * 16) by lia. rewrite Z.mod_add by lia. destruct (Z.eqb_spec (zlen a mod 16) 0); [contradiction|]. reflexivity.
Qed.
