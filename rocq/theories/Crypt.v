(** Crypt.v -- the decryptors of pdf/encryption.go:22-142. *)
From Verif Require Import Base Msg Reader Num Obj Env Rc4.
From Coq Require Import Strings.String.

(** binary.LittleEndian.PutUint32(_, uint32(n)), pdf/encryption.go:45,50,111,116,230 *)
Definition put32 (n : Z) : bytes :=
  let v := wrap32 n in
  [zb v; zb (v / 256); zb (v / 65536); zb (v / 16777216)].

(** NewDecryptor's salted hash, pdf/encryption.go:38-70 (AES, with [salt_tail] =
    "sAlT") and 104-133 (RC4, with no tail). *)
Definition object_key (E : env) (key : bytes) (n g : Z) (salt_tail : bytes) : bytes :=
  let salt := key ++ firstn 3 (put32 n) ++ firstn 2 (put32 g) ++ salt_tail in
  let l := if 16 <? zlen key + 5 then 16 else zlen key + 5 in
  firstn (Z.to_nat l) (e_md5 E salt).

(** DecryptorRC4.Decrypt, pdf/encryption.go:139-142.  rc4.NewCipher's error is
    ignored: for a key of length 0 or above 256 the cipher is nil and
    XORKeyStream panics unless the data is empty. *)
Definition rc4_decrypt (key : bytes) : decryptor := fun data =>
  if (1 <=? zlen key) && (zlen key <=? 256) then Ok (rc4 key data)
  else match data with [] => Ok [] | _ => Panic end.

(** cipher.NewCBCDecrypter + CryptBlocks over whole blocks. *)
Fixpoint cbc_decrypt (n : nat) (dec : bytes -> bytes) (iv data : bytes) : bytes :=
  match n with
  | O => []
  | S n' =>
      let c := firstn 16 data in
      xor_bytes (dec c) iv ++ cbc_decrypt n' dec c (skipn 16 data)
  end.

(** DecryptorAES.Decrypt, pdf/encryption.go:76-97.  The first block is the
    initialisation vector and stays in the data; the rest is decrypted in
    place; padding is not removed.  Panics (nil cipher because of a bad key
    length, or data that is not a multiple of the block size) are recovered,
    leaving the data unchanged, and logged through Debug, which itself panics
    if Verbose is nil. *)
Definition aes_decrypt (E : env) (key : bytes) : decryptor := fun data =>
  if zlen data <=? 16 then Ok data
  else if negb ((zlen key =? 16) || (zlen key =? 24) || (zlen key =? 32))
  then rbind (debug E) (fun _ => Ok data)
  else if negb ((zlen data - 16) mod 16 =? 0)
  then rbind (debug E) (fun _ => Ok data)
  else
    let iv := firstn 16 data in
    let body := skipn 16 data in
    Ok (iv ++ cbc_decrypt (Nat.div (List.length body) 16) (e_aes_dec E key) iv body).

(** CryptFilter.NewDecryptor, pdf/encryption.go:25-27,38-70,104-133 *)
Definition new_decryptor (E : env) (cf : cfilter) (n g : Z) : decryptor :=
  match cf with
  | CFNone => no_decryptor
  | CFAES key => aes_decrypt E (object_key E key n g (lit "sAlT"))
  | CFRC4 key => rc4_decrypt (object_key E key n g [])
  end.
