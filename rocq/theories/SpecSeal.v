(** SpecSeal.v -- writing an encrypted document (C97, C98).  The objects that
    are written are those of SpecWrite, with strings and streams encrypted. *)
From Verif Require Import Base Num Obj Reader Env SpecLex SpecObj SpecFetch SpecStream SpecXref SpecCrypt SpecSecurity SpecCryptDoc SpecWrite.
From Coq Require Import Strings.String.

(** [sealed_object E key s o c]: [c] is [o] encrypted under the file key [key].
    A stream is encrypted after its filters were applied, and what comes out is
    written as it is. *)
Inductive sealed_object (E : env) (key : bytes) (s : scheme) : iobj -> iobj -> Prop :=
| so_plain : forall n g v c, sealed (hidden E key n g (for_strings s)) v c ->
    sealed_object E key s {| inum := n; igen := g; ival := v; istream := None |} {| inum := n; igen := g; ival := c; istream := None |}
| so_stream : forall n g d c fl pl m fl' pl' plain data out, sealed (hidden E key n g (for_strings s)) (ODict d) (ODict c) ->
    filters_of d fl -> parms_of d pl -> (forall x, key_of (lit "Type") d (Some x) -> direct x) ->
    stream_method s d fl pl m fl' pl' -> decoded E fl' pl' (Some plain) out -> hidden E key n g m plain data -> raw data = true ->
    sealed_object E key s {| inum := n; igen := g; ival := ODict d; istream := out |} {| inum := n; igen := g; ival := ODict c; istream := Some data |}.
(** The trailer has the encryption dictionary [enc], or a reference to the
    object that is it. *)
Inductive encrypt_entry (D : list iobj) (enc : dict) : option obj -> option Z -> Prop :=
| ee_direct : encrypt_entry D enc (Some (ODict enc)) None
| ee_object : forall o g, In o D -> ival o = ODict enc -> istream o = None -> encrypt_entry D enc (Some (ORef (inum o) g)) (Some (inum o)).
(** [C] and [tr] are the encrypted objects and the trailer for the objects [D],
    the parameters [pr] of the encryption dictionary and the user password [pw].
    The encryption dictionary is not encrypted. *)
Record sealed_document (E : env) (D C : list iobj) (tr : dict) (pr : params) (pw : bytes) : Prop := {
  sd_lay : lay_document C tr;
  sd_sealed : exists enc n0 s, encrypt_entry D enc (entry tr (lit "Encrypt")) n0 /\
    handler [{| sc_entries := []; sc_trailer := tr |}] enc pr /\ user_password E pr pw /\ scheme_of enc pr s /\ no_aes s /\ no_default enc s /\
    Forall2 (fun o c => n0 = Some (inum o) /\ c = o \/ n0 <> Some (inum o) /\ sealed_object E (file_key E pr pw (pr_n pr)) s o c) D C
}.
