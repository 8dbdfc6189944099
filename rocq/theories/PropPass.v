(** PropPass.v -- C126: what the password is used for.
    Only statements; the proofs are in PassP.v, the witnesses in PassEx.v. *)
From Verif Require Import Base Msg Reader Num Obj ReadObj Env Getters Crypt GetObj Load Output Parse SpecRead SpecObj SpecFetch SpecLook SpecXref SpecCrypt CryptEx CryptDocEx SpecOut OutEx LockedEx PassP PassEx.
From Coq Require Import Strings.String.

(** ** C126.  A password counts as its first 32 bytes, completed with the padding
    of ISO 32000-1, 7.6.3.3 ([pad32]): same file operations, same exit. *)
Theorem C126_first_bytes : forall E OD fuel S n f pw1 pw2, firstn 32 (pw1 ++ pad32) = firstn 32 (pw2 ++ pad32) ->
  main E OD fuel S n f pw1 = main E OD fuel S n f pw2 /\ parse E OD fuel S pw1 = parse E OD fuel S pw2.
Proof. exact first_bytes. Qed.
Print Assumptions C126_first_bytes.

(** The passwords are one for the standard, and another is another. *)
Example C126_example : firstn 32 ([] ++ pad32) = firstn 32 (long_empty ++ pad32) /\ s_input SL = Some sealed_doc /\
  no_error (parse E5 OD1 9 SL []) = true /\ no_error (parse E5 OD1 9 SL guess) = false.
Proof. exact C126_ex. Qed.

(** Where nothing is encrypted it does not count at all. *)
Theorem C126_unused : forall E OD fuel S n f file pw1 pw2 x p, (2 <= fuel)%nat -> order_ok OD -> s_input S = Some file ->
  load fuel E (o_objects OD) file pw1 (new_parser file) = Ok (x, p) -> entry (ptrailer p) (lit "Encrypt") = None ->
  main E OD fuel S n f pw1 = main E OD fuel S n f pw2 /\ parse E OD fuel S pw1 = parse E OD fuel S pw2.
Proof. exact unused. Qed.
Print Assumptions C126_unused.

Example C126_unused_example : order_ok OD1 /\ s_input S1 = Some acts /\ load 20 E1 (o_objects OD1) acts [] (new_parser acts) = Ok (None, acts_p) /\
  entry (ptrailer acts_p) (lit "Encrypt") = None /\ parse E1 OD1 20 S1 [] = (acts_ops, Ok PNone).
Proof. exact C126_unused_ex. Qed.
