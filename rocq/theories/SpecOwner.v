(** SpecOwner.v -- the owner password (ISO 32000-1, 7.6.3.4; C110). *)
From Verif Require Import Base Env SpecCrypt SpecSecurity.

(** Algorithm 3, steps a to d: the key of [n] bytes that the owner password leads to *)
Definition owner_key (md5 : bytes -> bytes) (r : Z) (n : nat) (owner : bytes) : bytes :=
  firstn n (Nat.iter (if r =? 2 then 0 else 50) md5 (md5 (firstn 32 (owner ++ pad32)))).
(** steps f and g: [o] is the block [x] encrypted under this key *)
Definition owner_block (md5 : bytes -> bytes) (r : Z) (n : nat) (owner x o : bytes) : Prop :=
  let key := owner_key md5 r n owner in
  if r =? 2 then rc4_encrypted key x o else rc4_times key 20 x o.
(** [owner] is the owner password of a document with the user password [user]:
    O is the padded user password, encrypted. *)
Definition owner_password (E : env) (pr : params) (owner user : bytes) : Prop :=
  owner_block (e_md5 E) (pr_r pr) (pr_n pr) owner (firstn 32 (user ++ pad32)) (pr_o pr).
