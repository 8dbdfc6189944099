(** CryptP.v -- the decryptors and key derivations against SpecCrypt. *)
From Verif Require Import Base BaseP Msg Reader Num Obj Env Rc4 Crypt Security SpecFetch SpecStream SpecCrypt.
From Coq Require Import Strings.String.

(** ** exclusive or *)
Lemma lxor_range : forall a b, 0 <= a < 256 -> 0 <= b < 256 -> 0 <= Z.lxor a b < 256.
Proof.
  intros a b Ha Hb. split; [apply Z.lxor_nonneg; lia |].
  destruct (Z.eq_dec (Z.lxor a b) 0) as [-> | N]; [lia |].
  assert (0 < Z.lxor a b) by (assert (0 <= Z.lxor a b) by (apply Z.lxor_nonneg; lia); lia).
  apply (Z.log2_lt_pow2 _ 8); [assumption |].
  assert (L : Z.log2 (Z.lxor a b) <= Z.max (Z.log2 a) (Z.log2 b)) by (apply Z.log2_lxor; lia).
  assert (forall c, 0 <= c < 256 -> Z.log2 c <= 7).
  { intros c Hc. change 7 with (Z.log2 255). apply Z.log2_le_mono. lia. }
  pose proof (H0 a Ha). pose proof (H0 b Hb). lia.
Qed.
Lemma bv_bxor : forall a b, bv (bxor a b) = Z.lxor (bv a) (bv b).
Proof.
  intros a b. unfold bxor. rewrite bv_zb. apply Z.mod_small. apply lxor_range; apply bv_range.
Qed.
Lemma bxor_twice : forall a b, bxor (bxor a b) b = a.
Proof.
  intros a b. apply bv_inj. rewrite !bv_bxor, Z.lxor_assoc, Z.lxor_nilpotent. apply Z.lxor_0_r.
Qed.
Lemma xor_bytes_length : forall a b, List.length (xor_bytes a b) = Nat.min (List.length a) (List.length b).
Proof. induction a as [| x a IH]; intros [| y b]; cbn; [reflexivity.. |]. rewrite IH. reflexivity. Qed.
Lemma xor_bytes_nth : forall (a b : bytes) m x y, nth_error a m = Some x -> nth_error b m = Some y ->
  nth_error (xor_bytes a b) m = Some (bxor x y).
Proof.
  induction a as [| x0 a IH]; intros [| y0 b] [| m] x y Ha Hb; try discriminate.
  - injection Ha as <-. injection Hb as <-. reflexivity.
  - exact (IH b m x y Ha Hb).
Qed.
Lemma nth_error_some : forall A (l : list A) m, (m < List.length l)%nat -> exists x, nth_error l m = Some x.
Proof. intros A l m H. destruct (nth_error l m) eqn:E; [eauto |]. apply nth_error_None in E. lia. Qed.
Lemma nth_ext_error : forall (a b : bytes), List.length a = List.length b ->
  (forall m x y, nth_error a m = Some x -> nth_error b m = Some y -> x = y) -> a = b.
Proof.
  induction a as [| x a IH]; intros [| y b] L H; try discriminate; [reflexivity |].
  f_equal; [exact (H O x y eq_refl eq_refl) |]. apply IH; [now injection L |].
  intros m. exact (H (S m)).
Qed.

(** ** RC4 *)
Definition represents (s : bytes) (f : Z -> Z) : Prop :=
  List.length s = 256%nat /\ forall k, 0 <= k < 256 -> bv (sget s k) = f k.

Lemma sset_length : forall s i x, 0 <= i < zlen s -> List.length (sset s i x) = List.length s.
Proof.
  intros s i x H. unfold sset. unfold zlen in H. rewrite app_length, firstn_length. cbn [List.length]. rewrite skipn_length. lia.
Qed.
Lemma sget_sset : forall s i x k, 0 <= i < zlen s -> 0 <= k -> sget (sset s i x) k = if k =? i then x else sget s k.
Proof.
  intros s i x k H K. unfold sget, sset, zlen in *.
  assert (F : List.length (firstn (Z.to_nat i) s) = Z.to_nat i) by (rewrite firstn_length; lia).
  destruct (Z.eqb_spec k i) as [-> | N].
  - rewrite app_nth2 by lia. rewrite F, Nat.sub_diag. reflexivity.
  - destruct (Z_lt_ge_dec k i).
    + rewrite app_nth1 by lia.
      rewrite <- (firstn_skipn (Z.to_nat i) s) at 2. rewrite app_nth1 by lia. reflexivity.
    + rewrite app_nth2 by lia. rewrite F.
      replace (Z.to_nat k - Z.to_nat i)%nat with (S (Z.to_nat k - S (Z.to_nat i))) by lia. cbn [nth].
      rewrite <- (firstn_skipn (S (Z.to_nat i)) s) at 2. rewrite app_nth2 by (rewrite firstn_length; lia).
      rewrite firstn_length. f_equal. lia.
Qed.
Lemma represents_swap : forall s f i j, represents s f -> 0 <= i < 256 -> 0 <= j < 256 -> represents (sswap s i j) (swap f i j).
Proof.
  intros s f i j [L H] Hi Hj. unfold sswap. split.
  - rewrite !sset_length; unfold zlen; rewrite ?sset_length; unfold zlen; lia.
  - intros k Hk. rewrite !sget_sset; try (unfold zlen; rewrite ?sset_length; unfold zlen; lia).
    unfold swap. destruct (Z.eqb_spec k j), (Z.eqb_spec k i); subst; rewrite ?H by lia; reflexivity.
Qed.
Lemma represents_0 : represents sbox0 (fun k => k).
Proof.
  split; [reflexivity |]. intros k Hk. unfold sget, sbox0.
  rewrite (nth_indep _ x00 (zb (Z.of_nat 0))) by (rewrite map_length, seq_length; lia).
  rewrite (map_nth (fun i => zb (Z.of_nat i))), seq_nth, bv_zb by lia.
  rewrite Z.mod_small; lia.
Qed.
Lemma key_index : forall key m, key <> [] ->
  bv (nth (Z.to_nat (Z.of_nat m mod zlen key)) key x00) = key_at key m.
Proof.
  intros key m N. unfold key_at, zlen. destruct key as [| b key]; [congruence |].
  rewrite <- Nat2Z.inj_mod, Nat2Z.id. reflexivity.
Qed.
Lemma ksa_schedule : forall key w n m s, key <> [] -> (m + n = w)%nat -> (w <= 256)%nat -> represents s (snd (schedule key m)) ->
  represents (ksa n key (Z.of_nat m) (fst (schedule key m)) s) (snd (schedule key w)).
Proof.
  intros key w. induction n as [| n IH]; intros m s N H W R; cbn [ksa].
  - replace w with m by lia. exact R.
  - specialize (IH (S m)).
    assert (Q : schedule key (S m) = let '(j, f) := schedule key m in
       let j' := (j + f (Z.of_nat m) + key_at key m) mod 256 in (j', swap f (Z.of_nat m) j')) by reflexivity.
    destruct (schedule key m) as [j f]. cbn [fst snd] in *.
    rewrite Q in IH. cbn [fst snd] in IH.
    rewrite (key_index key m N). destruct R as [L R]. rewrite (R (Z.of_nat m)) by lia.
    replace (Z.of_nat m + 1) with (Z.of_nat (S m)) by lia. apply IH; [assumption | lia | assumption |].
    apply represents_swap; [split; assumption | lia |]. apply Z.mod_pos_bound. lia.
Qed.
Lemma ksa_all : forall key w, key <> [] -> (w <= 256)%nat -> represents (ksa w key 0 0 sbox0) (snd (schedule key w)).
Proof. intros key w N W. exact (ksa_schedule key w w 0 sbox0 N eq_refl W represents_0). Qed.
Lemma generator_0 : forall key, generator key 0 = (0, snd (schedule key 256)).
Proof. reflexivity. Qed.
Lemma prga_length : forall n i j s, List.length (prga n i j s) = n.
Proof. induction n as [| n IH]; intros; cbn [prga List.length]; [reflexivity |]. now rewrite IH. Qed.
Lemma prga_stream : forall key n m s k b, represents s (snd (generator key m)) -> 
  nth_error (prga n (Z.of_nat m mod 256) (fst (generator key m)) s) k = Some b -> bv b = stream_byte key (m + k).
Proof.
  intros key. induction n as [| n IH]; intros m s k b R H; [destruct k; discriminate |].
  cbn [prga] in H. 
  assert (Q : generator key (S m) = let '(j, f) := generator key m in
     let i := Z.of_nat (S m) mod 256 in let j' := (j + f i) mod 256 in (j', swap f i j')) by reflexivity.
  assert (I : (Z.of_nat m mod 256 + 1) mod 256 = Z.of_nat (S m) mod 256).
  { rewrite Zplus_mod_idemp_l. f_equal. lia. }
  rewrite I in H. specialize (IH (S m)).
  destruct (generator key m) as [j f]. cbn [fst snd] in *.
  assert (B : 0 <= Z.of_nat (S m) mod 256 < 256) by (apply Z.mod_pos_bound; lia).
  set (i := Z.of_nat (S m) mod 256) in *.
  assert (R' := R). destruct R' as [L R']. rewrite (R' i B) in H. cbv zeta in Q.
  assert (B2 : 0 <= (j + f i) mod 256 < 256) by (apply Z.mod_pos_bound; lia).
  set (j' := (j + f i) mod 256) in *.
  assert (R2 : represents (sswap s i j') (swap f i j')) by (apply represents_swap; assumption).
  destruct k as [| k].
  - injection H as <-. rewrite Nat.add_0_r. unfold stream_byte. rewrite Q. fold i.
    destruct R2 as [_ R2]. rewrite !R2; try assumption; try (apply Z.mod_pos_bound; lia). reflexivity.
  - cbn [nth_error] in H. replace (m + S k)%nat with (S m + k)%nat by lia.
    apply (IH (sswap s i j')); rewrite Q; cbn [fst snd]; assumption.
Qed.
Lemma rc4_stream_byte : forall key n k b, key <> [] -> nth_error (rc4_stream key n) k = Some b -> bv b = stream_byte key k.
Proof.
  intros key n k b N H. unfold rc4_stream in H.
  pose proof (ksa_all key 256 N (le_n 256)) as R. pose proof (generator_0 key) as Q.
  revert R Q H. generalize (ksa 256 key 0 0 sbox0). generalize (snd (schedule key 256)). intros f s R Q H.
  pose proof (prga_stream key n 0 s k b) as P. rewrite Q in P. exact (P R H).
Qed.
Lemma rc4_stream_length : forall key n, List.length (rc4_stream key n) = n.
Proof. intros. apply prga_length. Qed.
Lemma rc4_length : forall key data, List.length (rc4 key data) = List.length data.
Proof. intros. unfold rc4. rewrite xor_bytes_length, rc4_stream_length. lia. Qed.
Lemma rc4_nth : forall key data m x, key <> [] -> nth_error data m = Some x ->
  exists y, nth_error (rc4 key data) m = Some y /\ bv y = Z.lxor (bv x) (stream_byte key m).
Proof.
  intros key data m x N H. 
  assert (L : (m < List.length data)%nat) by (apply nth_error_Some; congruence).
  destruct (nth_error_some _ (rc4_stream key (List.length data)) m) as [b Hb]; [rewrite rc4_stream_length; assumption |].
  exists (bxor x b). split; [apply xor_bytes_nth; assumption |].
  rewrite bv_bxor. f_equal. apply (rc4_stream_byte key (List.length data)); assumption.
Qed.

(** the code's RC4 is RC4, in both directions *)
Lemma rc4_encrypts : forall key plain, key <> [] -> rc4_encrypted key plain (rc4 key plain).
Proof.
  intros key plain N. split; [apply rc4_length |]. intros m p c Hp Hc.
  destruct (rc4_nth key plain m p N Hp) as (y & Hy & E). congruence.
Qed.
Lemma rc4_unique : forall key plain c c', rc4_encrypted key plain c -> rc4_encrypted key plain c' -> c = c'.
Proof.
  intros key plain c c' [L H] [L' H']. apply nth_ext_error; [congruence |].
  intros m x y Hx Hy. apply bv_inj.
  destruct (nth_error_some _ plain m) as [p Hp]; [rewrite <- L; apply nth_error_Some; congruence |].
  rewrite (H m p x Hp Hx), (H' m p y Hp Hy). reflexivity.
Qed.
Lemma rc4_encrypted_sym : forall key plain cipher, rc4_encrypted key plain cipher -> rc4_encrypted key cipher plain.
Proof.
  intros key plain cipher [L H]. split; [congruence |].
  intros m c p Hc Hp. rewrite (H m p c Hp Hc), Z.lxor_assoc, Z.lxor_nilpotent. symmetry. apply Z.lxor_0_r.
Qed.
Lemma rc4_inverts : forall key plain cipher, key <> [] -> rc4_encrypted key plain cipher -> rc4 key cipher = plain.
Proof.
  intros key plain cipher N H. apply (rc4_unique key cipher); [apply rc4_encrypts; assumption |].
  apply rc4_encrypted_sym. assumption.
Qed.

(** ** keys *)
Lemma zb_mod : forall a b, a mod 256 = b mod 256 -> zb a = zb b.
Proof. intros a b H. apply bv_inj. rewrite !bv_zb. exact H. Qed.
Lemma low_div : forall n k c, 0 < k -> two32 = k * (256 * c) -> zb (wrap32 n / k) = zb (n / k).
Proof.
  intros n k c K H. apply zb_mod. unfold wrap32. rewrite (Z.div_mod n two32) at 2 by discriminate.
  rewrite H at 2. replace (k * (256 * c) * (n / two32) + n mod two32) with ((256 * c * (n / two32)) * k + n mod two32) by ring.
  rewrite Z.div_add_l by lia.
  replace (256 * c * (n / two32)) with (c * (n / two32) * 256) by ring.
  rewrite Z.add_comm, Z.mod_add by lia. reflexivity.
Qed.
Lemma low4 : forall n, put32 n = low_bytes 4 n.
Proof.
  intros n. unfold put32, low_bytes. cbn [map seq]. 
  change (256 ^ Z.of_nat 0) with 1. change (256 ^ Z.of_nat 1) with 256.
  change (256 ^ Z.of_nat 2) with 65536. change (256 ^ Z.of_nat 3) with 16777216.
  rewrite <- (low_div n 1 16777216), <- (low_div n 256 65536), <- (low_div n 65536 256), <- (low_div n 16777216 1)
    by (reflexivity || lia).
  rewrite Z.div_1_r. reflexivity.
Qed.
Lemma low3 : forall n, firstn 3 (put32 n) = low_bytes 3 n.
Proof. intros. rewrite low4. reflexivity. Qed.
Lemma low2 : forall n, firstn 2 (put32 n) = low_bytes 2 n.
Proof. intros. rewrite low4. reflexivity. Qed.

Lemma object_key_spec : forall E key n g (aes : bool),
  object_key E key n g (if aes then lit "sAlT" else []) = object_key_of (e_md5 E) aes key n g.
Proof.
  intros E key n g aes. unfold object_key, object_key_of. rewrite low3, low2.
  replace (Z.to_nat (if 16 <? zlen key + 5 then 16 else zlen key + 5)) with (Nat.min (List.length key + 5) 16).
  - destruct aes; reflexivity.
  - unfold zlen. destruct (Z.ltb_spec 16 (Z.of_nat (List.length key) + 5)); lia.
Qed.

(** ** the decryptors *)
Lemma object_key_length : forall E aes key n g, (forall x, List.length (e_md5 E x) = 16%nat) ->
  List.length (object_key_of (e_md5 E) aes key n g) = Nat.min (List.length key + 5) 16.
Proof. intros. unfold object_key_of. rewrite firstn_length, H. lia. Qed.

Lemma rc4_decryptor : forall E key n g plain cipher, (forall x, List.length (e_md5 E x) = 16%nat) ->
  rc4_encrypted (object_key_of (e_md5 E) false key n g) plain cipher ->
  new_decryptor E (CFRC4 key) n g cipher = Ok plain.
Proof.
  intros E key n g plain cipher M H. cbn [new_decryptor].
  rewrite (object_key_spec E key n g false). pose proof (object_key_length E false key n g M) as L.
  unfold rc4_decrypt. set (k := object_key_of (e_md5 E) false key n g) in *.
  replace ((1 <=? zlen k) && (zlen k <=? 256)) with true.
  - f_equal. apply rc4_inverts; [| assumption]. intros ->. cbn in L. lia.
  - symmetry. apply andb_true_intro. unfold zlen. rewrite L. split; apply Z.leb_le; lia.
Qed.
Lemma rc4_cipher_exists : forall key plain, key <> [] -> exists cipher, rc4_encrypted key plain cipher.
Proof. intros key plain N. exists (rc4 key plain). apply rc4_encrypts. assumption. Qed.

(** *** CBC *)
Lemma xor16_xor : forall a b c, xor16 a b c -> xor_bytes c b = a.
Proof.
  intros a b c (La & Lb & Lc & H). apply nth_ext_error; [rewrite xor_bytes_length; lia |].
  intros m x y Hx Hy. assert (B : (m < 16)%nat) by (rewrite <- La; apply nth_error_Some; congruence).
  destruct (nth_error_some _ b m) as [yb Hyb]; [lia |]. destruct (nth_error_some _ c m) as [z Hz]; [lia |].
  rewrite (xor_bytes_nth _ _ _ _ _ Hz Hyb) in Hx. injection Hx as <-.
  apply bv_inj. rewrite bv_bxor, (H m _ _ _ Hy Hyb Hz), Z.lxor_assoc, Z.lxor_nilpotent. apply Z.lxor_0_r.
Qed.
Lemma cbc_length : forall enc iv plain cipher dec, block_inverse enc dec -> cbc_encrypted enc iv plain cipher ->
  List.length iv = 16%nat /\ List.length cipher = List.length plain /\ exists k, List.length plain = (k * 16)%nat.
Proof.
  intros enc iv plain cipher dec B H. induction H as [iv L | iv b x plain cipher X H (L & IH & k & K)].
  - split; [assumption |]. split; [reflexivity | exists O; reflexivity].
  - pose proof X as (Lb & Li & Lx & _). split; [assumption |]. rewrite !app_length, IH, L, Lb.
    split; [reflexivity |]. exists (S k). lia.
Qed.
Lemma cbc_inverts : forall enc iv plain cipher dec, block_inverse enc dec -> cbc_encrypted enc iv plain cipher ->
  cbc_decrypt (Nat.div (List.length cipher) 16) dec iv cipher = plain.
Proof.
  intros enc iv plain cipher dec B H. induction H as [iv L | iv b x plain cipher X H IH]; [reflexivity |].
  pose proof X as (Lb & Li & Lx & _). destruct (B x Lx) as [Le De].
  rewrite app_length, Le. replace (16 + List.length cipher)%nat with (List.length cipher + 1 * 16)%nat by lia.
  rewrite Nat.div_add by discriminate. rewrite Nat.add_1_r. cbn [cbc_decrypt].
  rewrite firstn_app, Le, Nat.sub_diag, firstn_O, app_nil_r, firstn_all2 by lia.
  rewrite skipn_app, Le, Nat.sub_diag, skipn_all2 by lia. cbn [app skipn].
  rewrite IH, De. f_equal. apply xor16_xor. assumption.
Qed.
Lemma padded_length : forall p f, padded p f -> zlen f mod 16 = 0 /\ zlen p < zlen f.
Proof.
  intros p f [p' k K H]. assert (Q : zlen (p' ++ repeat (zb k) (Z.to_nat k)) = zlen p' + k).
  { unfold zlen. rewrite app_length, repeat_length. lia. }
  rewrite Q. split; [assumption | lia].
Qed.
(** the code's result: the initialisation vector and the padding stay *)
Lemma aes_result : forall E key enc iv plain full c, (zlen key = 16 \/ zlen key = 24 \/ zlen key = 32) ->
  block_inverse enc (e_aes_dec E key) -> padded plain full -> cbc_encrypted enc iv full c ->
  aes_decrypt E key (iv ++ c) = Ok (iv ++ full).
Proof.
  intros E key enc iv plain full c K B P H.
  destruct (cbc_length _ _ _ _ _ B H) as (L & Lc & k & Lk). destruct (padded_length _ _ P) as [Pm Pl].
  assert (Z : zlen (iv ++ c) = 16 + zlen full) by (unfold zlen; rewrite app_length, L, Lc; lia).
  assert (zlen plain >= 0) by (unfold zlen; lia).
  unfold aes_decrypt. rewrite Z.
  destruct (Z.leb_spec (16 + zlen full) 16); [lia |].
  replace ((zlen key =? 16) || (zlen key =? 24) || (zlen key =? 32)) with true
    by (destruct K as [-> | [-> | ->]]; reflexivity).
  cbn [negb]. replace (16 + zlen full - 16) with (zlen full) by lia. rewrite Pm. cbn [negb Z.eqb].
  rewrite firstn_app, L, Nat.sub_diag, firstn_O, app_nil_r, firstn_all2 by lia.
  rewrite skipn_app, L, Nat.sub_diag, skipn_all2 by lia. cbn [app skipn].
  rewrite (cbc_inverts enc iv full c _ B H). reflexivity.
Qed.
Lemma aes_decryptor : forall E key n g enc iv plain full c,
  (forall x, List.length (e_md5 E x) = 16%nat) -> (11 <= List.length key)%nat ->
  block_inverse enc (e_aes_dec E (object_key_of (e_md5 E) true key n g)) -> padded plain full -> cbc_encrypted enc iv full c ->
  new_decryptor E (CFAES key) n g (iv ++ c) = Ok (iv ++ full).
Proof.
  intros E key n g enc iv plain full c M K B P H. cbn [new_decryptor].
  rewrite (object_key_spec E key n g true). apply (aes_result E _ enc iv plain full c); try assumption.
  left. unfold zlen. rewrite object_key_length by assumption. lia.
Qed.
Lemma rc4_keeps_length : forall E key n g x, (forall x, List.length (e_md5 E x) = 16%nat) ->
  exists y, new_decryptor E (CFRC4 key) n g x = Ok y /\ List.length y = List.length x.
Proof.
  intros E key n g x M. destruct (rc4_cipher_exists (object_key_of (e_md5 E) false key n g) x) as (c & H).
  - intros Q. pose proof (object_key_length E false key n g M) as L. rewrite Q in L. cbn [List.length] in L. lia.
  - exists c. split; [| apply H]. apply rc4_decryptor; [assumption |]. apply rc4_encrypted_sym. assumption.
Qed.
