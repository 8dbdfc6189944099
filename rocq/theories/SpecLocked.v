(** SpecLocked.v -- encrypted documents that are not to be opened (C94). *)
From Verif Require Import Base Num Obj SpecFetch SpecStream SpecXref SpecCrypt SpecSecurity SpecCryptDoc.
From Coq Require Import Strings.String.

(** The entries (direct objects) of the encryption dictionary that decide about
    the password.  Unlike [handler] nothing is said of the crypt filters of V 4. *)
Record locked (secs : list section) (enc : dict) (pr : params) : Prop := {
  lk_filter : entry enc (lit "Filter") = Some (OName (lit "Standard"));
  lk_v : integer (entry enc (lit "V")) (pr_v pr);
  lk_r : integer (entry enc (lit "R")) (pr_r pr);
  lk_kind : pr_v pr = 1 /\ (pr_r pr = 2 \/ pr_r pr = 3) /\ pr_n pr = 5%nat \/
    (pr_v pr = 2 /\ pr_r pr = 3 \/ pr_v pr = 4 /\ pr_r pr = 4) /\ exists l, (integer (entry enc (lit "Length")) l \/ entry enc (lit "Length") = None /\ l = 40) /\
      40 <= l <= 128 /\ l = 8 * Z.of_nat (pr_n pr);
  lk_o : entry enc (lit "O") = Some (OStr (pr_o pr));
  lk_u : entry enc (lit "U") = Some (OStr (pr_u pr));
  lk_p : integer (entry enc (lit "P")) (pr_p pr);
  lk_meta : entry enc (lit "EncryptMetadata") = None /\ pr_meta pr = true \/
    entry enc (lit "EncryptMetadata") = Some (OKw (lit "true")) /\ pr_meta pr = true \/ entry enc (lit "EncryptMetadata") = Some (OKw (lit "false")) /\ pr_meta pr = false;
  lk_id : exists ids, newest_key (lit "ID") secs = Some (OArr (OStr (pr_id pr) :: ids))
}.

(** Handlers the parser does not know: not the standard one, or of another
    version or revision (which are 0 if they are missing). *)
Definition named (x : option obj) (n : bytes) : Prop := x = Some (OName n).
Definition integer_or_0 (x : option obj) (n : Z) : Prop := integer x n \/ x = None /\ n = 0.
Inductive unknown (enc : dict) : Prop :=
| un_filter : forall f, named (entry enc (lit "Filter")) f -> f <> lit "Standard" -> unknown enc
| un_no_filter : entry enc (lit "Filter") = None -> unknown enc
| un_version : forall v, named (entry enc (lit "Filter")) (lit "Standard") -> integer_or_0 (entry enc (lit "V")) v -> ~ In v [1; 2; 4] -> unknown enc
| un_revision : forall v r, named (entry enc (lit "Filter")) (lit "Standard") -> integer (entry enc (lit "V")) v -> In v [1; 2; 4] ->
    integer_or_0 (entry enc (lit "R")) r -> ~ In r [2; 3; 4] -> unknown enc.
