(** PropOwner.v -- C110: the owner password. *)
From Verif Require Import Base BaseP Msg Reader Num Obj ReadObj Env Getters GetObj Xref Crypt Security Load SpecFetch SpecRead SpecObj SpecStream SpecXref SpecCrypt SpecSecurity
  SpecCryptDoc SpecWrite SpecSeal SpecOwner OwnerP SealEx OwnerEx OutEx.
From Coq Require Import Strings.String Sorting.Permutation.

(** ** C110.  A document that was encrypted with a user and an owner password
    opens with the owner password:
      forall E D C tr pr pw owner, (forall x, List.length (e_md5 E x) = 16%nat) -> sealed_document E D C tr pr pw -> owner_password E pr owner pw ->
      forall ord, (forall m, Permutation (ord m) m) -> exists f0, forall fuel, (f0 <= fuel)%nat -> exists p,
        load fuel E ord (w_document C tr) owner (new_parser (w_document C tr)) = Ok (None, p) /\ (forall o, In o D -> fetched E (w_document C tr) p (inum o) o)
    The code takes every password for a user password. *)
Theorem C110_owner_refuted : exists E D C tr pr pw owner, (forall x, List.length (e_md5 E x) = 16%nat) /\ sealed_document E D C tr pr pw /\ owner_password E pr owner pw /\
  forall ord, (forall m, Permutation (ord m) m) -> forall fuel p, load fuel E ord (w_document C tr) owner (new_parser (w_document C tr)) <> Ok (None, p).
Proof. exact (ex_intro _ E1 (ex_intro _ DO (ex_intro _ CO (ex_intro _ trO (ex_intro _ prO (ex_intro _ pwS (ex_intro _ owO C110_owner))))))). Qed.
Print Assumptions C110_owner_refuted.

(** It opens if the owner password is the user password (Algorithm 3, step a) ... *)
Theorem C110_same_partial : forall E D C tr pr pw owner, (forall x, List.length (e_md5 E x) = 16%nat) -> sealed_document E D C tr pr pw -> owner_password E pr owner pw ->
  firstn 32 (owner ++ pad32) = firstn 32 (pw ++ pad32) ->
  forall ord, (forall m, Permutation (ord m) m) -> exists f0, forall fuel, (f0 <= fuel)%nat -> exists p,
    load fuel E ord (w_document C tr) owner (new_parser (w_document C tr)) = Ok (None, p) /\ (forall o, In o D -> fetched E (w_document C tr) p (inum o) o).
Proof. exact same_opens. Qed.
Print Assumptions C110_same_partial.

(** ... and with the block that the owner password makes of O (Algorithm 7), as
    the password. *)
Theorem C110_block_partial : forall E D C tr pr pw owner x, (forall x, List.length (e_md5 E x) = 16%nat) -> sealed_document E D C tr pr pw -> owner_password E pr owner pw ->
  owner_block (e_md5 E) (pr_r pr) (pr_n pr) owner x (pr_o pr) ->
  forall ord, (forall m, Permutation (ord m) m) -> exists f0, forall fuel, (f0 <= fuel)%nat -> exists p,
    load fuel E ord (w_document C tr) x (new_parser (w_document C tr)) = Ok (None, p) /\ (forall o, In o D -> fetched E (w_document C tr) p (inum o) o).
Proof. exact owner_opens. Qed.
Print Assumptions C110_block_partial.

Example C110_example : sealed_document E1 DO CO trO prO pwS /\ owner_password E1 prO owO pwS /\ owner_block (e_md5 E1) (pr_r prO) (pr_n prO) owO (firstn 32 (pwS ++ pad32)) (pr_o prO) /\ zlen (pr_o prO) = 32.
Proof. exact C110_ex. Qed.
Example C110_example_same : sealed_document E1 DO CT trT prT pwS /\ owner_password E1 prT owT pwS /\ firstn 32 (owT ++ pad32) = firstn 32 (pwS ++ pad32).
Proof. exact C110_ex_same. Qed.
