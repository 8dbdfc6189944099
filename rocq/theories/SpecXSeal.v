(** SpecXSeal.v -- writing an encrypted document with a cross-reference stream
    (C109). *)
From Verif Require Import Base Num Obj Reader Env SpecLex SpecObj SpecFetch SpecStream SpecXref SpecCrypt SpecSecurity SpecCryptDoc SpecWrite SpecSeal SpecXWrite.
From Coq Require Import Strings.String.

(** [C] are the encrypted objects for the objects [D], the parameters [pr] of the
    encryption dictionary and the user password [pw].  The encryption dictionary
    is not encrypted, and neither is the cross-reference stream [xs], whose
    dictionary is [d]. *)
Record sealed_xdocument (E : env) (D C : list iobj) (xs : iobj) (d : dict) (data : bytes) (pr : params) (pw : bytes) : Prop := {
  sx_lay : lay_xdocument E C xs d data;
  sx_sealed : exists enc n0 s, encrypt_entry D enc (entry d (lit "Encrypt")) n0 /\
    handler [{| sc_entries := []; sc_trailer := d |}] enc pr /\ user_password E pr pw /\ scheme_of enc pr s /\ no_aes s /\ no_default enc s /\
    Forall2 (fun o c => n0 = Some (inum o) /\ c = o \/ n0 <> Some (inum o) /\ sealed_object E (file_key E pr pw (pr_n pr)) s o c) D C
}.
