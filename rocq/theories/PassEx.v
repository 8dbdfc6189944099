(** PassEx.v -- witnesses for C126. *)
From Verif Require Import Base BaseP Msg Reader Num Obj ReadObj Env Getters Crypt GetObj Load Output Parse SpecRead SpecObj SpecFetch SpecLook SpecXref SpecCrypt CryptEx CryptDocEx SpecOut OutEx LockedEx.
From Coq Require Import Strings.String.

(** the padding itself, and more behind it, for the empty password *)
Definition long_empty : bytes := pad32 ++ lit "anything".
Definition no_error (r : list op * res perr) : bool := match snd r with Ok PNone => true | _ => false end.
Lemma C126_ex : firstn 32 ([] ++ pad32) = firstn 32 (long_empty ++ pad32) /\ s_input SL = Some sealed_doc /\
  no_error (parse E5 OD1 9 SL []) = true /\ no_error (parse E5 OD1 9 SL guess) = false.
Proof. split; [reflexivity|]. split; [reflexivity|]. split; vm_compute; reflexivity. Qed.

Lemma C126_unused_ex : order_ok OD1 /\ s_input S1 = Some acts /\ load 20 E1 (o_objects OD1) acts [] (new_parser acts) = Ok (None, acts_p) /\
  entry (ptrailer acts_p) (lit "Encrypt") = None /\ parse E1 OD1 20 S1 [] = (acts_ops, Ok PNone).
Proof.
  split; [exact OD1_ok|]. split; [reflexivity|]. split; [exact acts_load|]. split; [vm_compute; reflexivity|exact acts_parse].
Qed.
