(** Md5.v -- Go's crypto/md5 (RFC 1321), as used at pdf/encryption.go:57-59,
    120-122,261-264,344-361 and pdf/output.go:95-97.  The theorems quantify over
    the hash function; this concrete one serves the executable examples. *)
From Verif Require Import Base.

Definition md5_s : list Z :=
  [7;12;17;22;7;12;17;22;7;12;17;22;7;12;17;22;
   5;9;14;20;5;9;14;20;5;9;14;20;5;9;14;20;
   4;11;16;23;4;11;16;23;4;11;16;23;4;11;16;23;
   6;10;15;21;6;10;15;21;6;10;15;21;6;10;15;21].

Definition md5_k : list Z :=
  [0xd76aa478;0xe8c7b756;0x242070db;0xc1bdceee;0xf57c0faf;0x4787c62a;0xa8304613;0xfd469501;
   0x698098d8;0x8b44f7af;0xffff5bb1;0x895cd7be;0x6b901122;0xfd987193;0xa679438e;0x49b40821;
   0xf61e2562;0xc040b340;0x265e5a51;0xe9b6c7aa;0xd62f105d;0x02441453;0xd8a1e681;0xe7d3fbc8;
   0x21e1cde6;0xc33707d6;0xf4d50d87;0x455a14ed;0xa9e3e905;0xfcefa3f8;0x676f02d9;0x8d2a4c8a;
   0xfffa3942;0x8771f681;0x6d9d6122;0xfde5380c;0xa4beea44;0x4bdecfa9;0xf6bb4b60;0xbebfbc70;
   0x289b7ec6;0xeaa127fa;0xd4ef3085;0x04881d05;0xd9d4d039;0xe6db99e5;0x1fa27cf8;0xc4ac5665;
   0xf4292244;0x432aff97;0xab9423a7;0xfc93a039;0x655b59c3;0x8f0ccc92;0xffeff47d;0x85845dd1;
   0x6fa87e4f;0xfe2ce6e0;0xa3014314;0x4e0811a1;0xf7537e82;0xbd3af235;0x2ad7d2bb;0xeb86d391].

Definition not32 (x : Z) : Z := 4294967295 - x.
Definition rotl32 (x n : Z) : Z := Z.lor (wrap32 (Z.shiftl x n)) (Z.shiftr x (32 - n)).

(** little-endian 32-bit words *)
Definition le32 (v : Z) : bytes :=
  [zb v; zb (v / 256); zb (v / 65536); zb (v / 16777216)].
Fixpoint words (n : nat) (l : bytes) : list Z :=
  match n, l with
  | S n', a :: b :: c :: d :: r => (bv a + 256 * bv b + 65536 * bv c + 16777216 * bv d) :: words n' r
  | _, _ => []
  end.

Definition md5_step (m : list Z) (st : Z * Z * Z * Z) (i : nat) : Z * Z * Z * Z :=
  let '(a, b, c, d) := st in
  let fi := Z.of_nat i in
  let '(f, g) :=
    if fi <? 16 then (Z.lor (Z.land b c) (Z.land (not32 b) d), fi)
    else if fi <? 32 then (Z.lor (Z.land d b) (Z.land (not32 d) c), (5 * fi + 1) mod 16)
    else if fi <? 48 then (Z.lxor (Z.lxor b c) d, (3 * fi + 5) mod 16)
    else (Z.lxor c (Z.lor b (not32 d)), (7 * fi) mod 16) in
  let f := wrap32 (f + a + nth i md5_k 0 + nth (Z.to_nat g) m 0) in
  (d, wrap32 (b + rotl32 f (nth i md5_s 0)), b, c).

Definition md5_block (st : Z * Z * Z * Z) (blk : bytes) : Z * Z * Z * Z :=
  let m := words 16 blk in
  let '(a, b, c, d) := st in
  let '(a', b', c', d') := fold_left (md5_step m) (seq 0 64) st in
  (wrap32 (a + a'), wrap32 (b + b'), wrap32 (c + c'), wrap32 (d + d')).

Fixpoint md5_blocks (n : nat) (st : Z * Z * Z * Z) (l : bytes) : Z * Z * Z * Z :=
  match n with
  | O => st
  | S n' => md5_blocks n' (md5_block st (firstn 64 l)) (skipn 64 l)
  end.

Definition md5 (data : bytes) : bytes :=
  let n := zlen data in
  let padn := Z.to_nat ((55 - n) mod 64) in
  let l := data ++ [x80] ++ repeat x00 padn ++ le32 (8 * n) ++ le32 (8 * n / 4294967296) in
  let '(a, b, c, d) :=
    md5_blocks (Nat.div (List.length l) 64) (0x67452301, 0xefcdab89, 0x98badcfe, 0x10325476) l in
  le32 a ++ le32 b ++ le32 c ++ le32 d.
