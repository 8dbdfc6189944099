(** SpecUSeal.v -- writing an encrypted document with incremental updates
    (C112). *)
From Verif Require Import Base Num Obj Reader Env SpecLex SpecObj SpecFetch SpecStream SpecXref SpecCrypt SpecSecurity SpecCryptDoc SpecWrite SpecSeal SpecUpdate.
From Coq Require Import Strings.String.

(** The trailers as sections, the newest first. *)
Definition trailers (rs : list revision) : list section := map (fun r => {| sc_entries := []; sc_trailer := rv_trailer r |}) (rev rs).
(** [cs] are the updates [rs] with their objects encrypted, for the parameters
    [pr] of the encryption dictionary and the user password [pw].  The object
    that is the encryption dictionary is not encrypted. *)
Definition sealed_revision (E : env) (key : bytes) (s : scheme) (n0 : option Z) (r c : revision) : Prop :=
  rv_freed c = rv_freed r /\ rv_trailer c = rv_trailer r /\
  Forall2 (fun o c => n0 = Some (inum o) /\ c = o \/ n0 <> Some (inum o) /\ sealed_object E key s o c) (rv_objects r) (rv_objects c).
Record sealed_updates (E : env) (rs cs : list revision) (pr : params) (pw : bytes) : Prop := {
  su_lay : lay_updates cs;
  su_sealed : exists enc n0 s, encrypt_entry (living rs) enc (current_key (lit "Encrypt") rs None) n0 /\
    handler (trailers rs) enc pr /\ user_password E pr pw /\ scheme_of enc pr s /\ no_aes s /\ no_default enc s /\
    Forall2 (sealed_revision E (file_key E pr pw (pr_n pr)) s n0) rs cs
}.
