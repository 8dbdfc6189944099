(** SpecCrypt.v -- encryption as ISO 32000-1, 7.6 prescribes it: RC4, CBC mode
    with padding, Algorithms 1, 2, 4 and 5, written without the model's
    functions. *)
From Verif Require Import Base Num Obj Env SpecFetch SpecStream.
From Coq Require Import Strings.String.

(** ** RC4: the permutation as a function on 0..255 *)
Definition swap (f : Z -> Z) (i j : Z) : Z -> Z := fun k => if k =? i then f j else if k =? j then f i else f k.
(** byte [i] of the key, repeated as often as needed *)
Definition key_at (key : bytes) (i : nat) : Z := bv (nth (Nat.modulo i (List.length key)) key x00).
(** [n] steps of key scheduling *)
Fixpoint schedule (key : bytes) (n : nat) : Z * (Z -> Z) :=
  match n with
  | O => (0, fun k => k)
  | S m =>
      let '(j, f) := schedule key m in
      let j' := (j + f (Z.of_nat m) + key_at key m) mod 256 in
      (j', swap f (Z.of_nat m) j')
  end.
(** the generator after [n] bytes of output *)
Fixpoint generator (key : bytes) (n : nat) : Z * (Z -> Z) :=
  match n with
  | O => (0, snd (schedule key 256))
  | S m =>
      let '(j, f) := generator key m in
      let i := Z.of_nat n mod 256 in
      let j' := (j + f i) mod 256 in
      (j', swap f i j')
  end.
(** byte [m] of the key stream, counting from 0 *)
Definition stream_byte (key : bytes) (m : nat) : Z :=
  let '(j, f) := generator key (S m) in f ((f (Z.of_nat (S m) mod 256) + f j) mod 256).
(** [cipher] is [plain] encrypted. *)
Definition rc4_encrypted (key plain cipher : bytes) : Prop :=
  List.length cipher = List.length plain /\
  forall m p c, nth_error plain m = Some p -> nth_error cipher m = Some c -> bv c = Z.lxor (bv p) (stream_byte key m).

(** ** AES in CBC mode, for any block cipher *)
Definition xor16 (a b c : bytes) : Prop :=
  List.length a = 16%nat /\ List.length b = 16%nat /\ List.length c = 16%nat /\
  forall m x y z, nth_error a m = Some x -> nth_error b m = Some y -> nth_error c m = Some z -> bv z = Z.lxor (bv x) (bv y).
(** [enc] is the block cipher: each block is combined with the block before *)
Inductive cbc_encrypted (enc : bytes -> bytes) : bytes -> bytes -> bytes -> Prop :=
| cbc_nil : forall iv, List.length iv = 16%nat -> cbc_encrypted enc iv [] []
| cbc_cons : forall iv b x plain cipher, xor16 b iv x -> cbc_encrypted enc (enc x) plain cipher ->
    cbc_encrypted enc iv (b ++ plain) (enc x ++ cipher).
(** padding to whole blocks, at least one byte *)
Inductive padded : bytes -> bytes -> Prop :=
| pad_intro : forall p k, 1 <= k <= 16 -> (zlen p + k) mod 16 = 0 -> padded p (p ++ repeat (zb k) (Z.to_nat k)).
(** the whole encrypted string: the initialisation vector first *)
Definition aes_encrypted (enc : bytes -> bytes) (plain cipher : bytes) : Prop :=
  exists iv full c, padded plain full /\ cbc_encrypted enc iv full c /\ cipher = iv ++ c.
(** [dec] is the inverse of [enc] on blocks *)
Definition block_inverse (enc dec : bytes -> bytes) : Prop :=
  forall b, List.length b = 16%nat -> List.length (enc b) = 16%nat /\ dec (enc b) = b.

(** ** Keys *)
(** the [k] low bytes of [n], least significant first *)
Definition low_bytes (k : nat) (n : Z) : bytes := map (fun i => zb (n / 256 ^ Z.of_nat i)) (seq 0 k).
(** Algorithm 1: the key for object [n], generation [g] *)
Definition object_key_of (md5 : bytes -> bytes) (aes : bool) (key : bytes) (n g : Z) : bytes :=
  firstn (Nat.min (List.length key + 5) 16)
    (md5 (key ++ low_bytes 3 n ++ low_bytes 2 g ++ if aes then [x73; x41; x6c; x54] else [])).

(** the 32 bytes of padding in Algorithm 2 *)
Definition pad32 : bytes :=
  map zb [40; 191; 78; 94; 78; 117; 138; 65; 100; 0; 78; 86; 255; 250; 1; 8;
          46; 46; 0; 182; 208; 104; 62; 128; 47; 12; 169; 254; 100; 83; 105; 122].
(** Algorithm 2: the file key of [n] bytes *)
Definition file_key_of (md5 : bytes -> bytes) (r : Z) (meta : bool) (o : bytes) (p : Z) (id password : bytes) (n : nat) : bytes :=
  let first := firstn n (md5 (firstn 32 (password ++ pad32) ++ o ++ low_bytes 4 p ++ id ++
                               (if (r =? 4) && negb meta then repeat xff 4 else []))) in
  Nat.iter (if r =? 2 then 0 else 50) (fun k => firstn n (md5 k)) first.
(** Algorithm 4: the U entry for revision 2.  Algorithm 5: its first 16 bytes
    for revisions 3 and 4. *)
Inductive rc4_times (key : bytes) : nat -> bytes -> bytes -> Prop :=
| rt_zero : forall x, rc4_times key 0 x x
| rt_next : forall k x y z key', rc4_times key k x y -> List.length key' = List.length key ->
    (forall m a b, nth_error key m = Some a -> nth_error key' m = Some b -> bv b = Z.lxor (bv a) (Z.of_nat k)) ->
    rc4_encrypted key' y z -> rc4_times key (S k) x z.
Definition user_entry (md5 : bytes -> bytes) (r : Z) (id key u : bytes) : Prop :=
  if r =? 2 then rc4_encrypted key pad32 u
  else rc4_times key 20 (md5 (pad32 ++ id)) u.
