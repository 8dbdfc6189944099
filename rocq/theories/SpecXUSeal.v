(** SpecXUSeal.v -- writing an encrypted document with incremental updates that
    have cross-reference streams (C113). *)
From Verif Require Import Base Num Obj Reader Env SpecLex SpecObj SpecFetch SpecStream SpecXref SpecCrypt SpecSecurity SpecCryptDoc SpecWrite SpecSeal SpecUpdate SpecUSeal SpecXWrite SpecXUpdate.
From Coq Require Import Strings.String.

(** The update [c] with the objects [D] in place of the encrypted ones.  Its
    stream is not encrypted. *)
Definition cleared (D : list iobj) (c : xrevision) : revision :=
  {| rv_objects := D ++ [x_read (xv_stream c) (xv_data c)]; rv_freed := xv_freed c; rv_trailer := xv_dict c |}.
Definition clear_updates (Ds : list (list iobj)) (cs : list xrevision) : list revision := map (fun q => cleared (fst q) (snd q)) (combine Ds cs).
(** [cs] are updates whose objects are the objects [Ds] encrypted, for the
    parameters [pr] of the encryption dictionary and the user password [pw].
    The object that is the encryption dictionary is not encrypted. *)
Record sealed_xupdates (E : env) (Ds : list (list iobj)) (cs : list xrevision) (pr : params) (pw : bytes) : Prop := {
  sv_lay : lay_xupdates E cs;
  sv_sealed : let rs := clear_updates Ds cs in
    exists enc n0 s, encrypt_entry (living rs) enc (current_key (lit "Encrypt") rs None) n0 /\
    handler (trailers rs) enc pr /\ user_password E pr pw /\ scheme_of enc pr s /\ no_aes s /\ no_default enc s /\
    Forall2 (fun D c => Forall2 (fun o x => n0 = Some (inum o) /\ x = o \/ n0 <> Some (inum o) /\ sealed_object E (file_key E pr pw (pr_n pr)) s o x) D (xv_objects c)) Ds cs
}.
