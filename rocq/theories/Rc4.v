(** Rc4.v -- Go's crypto/rc4, as used at pdf/encryption.go:140-141,254-255,272-273. *)
From Verif Require Import Base.

(** bytewise exclusive or *)
Definition bxor (a b : byte) : byte := zb (Z.lxor (bv a) (bv b)).
Fixpoint xor_bytes (a b : bytes) : bytes :=
  match a, b with
  | x :: a', y :: b' => bxor x y :: xor_bytes a' b'
  | _, _ => []
  end.

(** the cipher's state array *)
Definition sbox0 : bytes := map (fun i => zb (Z.of_nat i)) (seq 0 256).
Definition sget (s : bytes) (i : Z) : byte := nth (Z.to_nat i) s x00.
Definition sset (s : bytes) (i : Z) (x : byte) : bytes :=
  firstn (Z.to_nat i) s ++ x :: skipn (S (Z.to_nat i)) s.
Definition sswap (s : bytes) (i j : Z) : bytes :=
  let a := sget s i in let b := sget s j in sset (sset s i b) j a.

(** rc4.NewCipher: key scheduling *)
Fixpoint ksa (n : nat) (key : bytes) (i j : Z) (s : bytes) : bytes :=
  match n with
  | O => s
  | S n' =>
      let j := (j + bv (sget s i) + bv (nth (Z.to_nat (i mod zlen key)) key x00)) mod 256 in
      ksa n' key (i + 1) j (sswap s i j)
  end.

(** rc4.Cipher.XORKeyStream: n bytes of key stream *)
Fixpoint prga (n : nat) (i j : Z) (s : bytes) : bytes :=
  match n with
  | O => []
  | S n' =>
      let i := (i + 1) mod 256 in
      let j := (j + bv (sget s i)) mod 256 in
      let s := sswap s i j in
      sget s ((bv (sget s i) + bv (sget s j)) mod 256) :: prga n' i j s
  end.

Definition rc4_stream (key : bytes) (n : nat) : bytes := prga n 0 0 (ksa 256 key 0 0 sbox0).

(** a fresh cipher applied to the data *)
Definition rc4 (key data : bytes) : bytes := xor_bytes data (rc4_stream key (List.length data)).
