(** Env.v -- external code the model is parameterised by, and the parser state
    with its monad. *)
From Verif Require Import Base Msg Reader Num Lexer Obj.

(** Functions outside /repo.  Theorems quantify over every [env] unless they
    state hypotheses about one of its fields.
    - [e_md5] crypto/md5 (a concrete one is in Md5.v);
    - [e_aes_dec key block] one block of crypto/aes decryption;
    - [e_zlib] compress/zlib: [None] when NewReader fails, otherwise the bytes
      ReadFrom obtained and whether it ended with an error (pdf/filters.go:213-222);
    - [e_lzw], [e_tiff_lzw] compress/lzw and golang.org/x/image/tiff/lzw, same
      convention without the constructor error (pdf/filters.go:238-247);
    - [e_fmt] fmt.Sprint(float64) (pdf/number.go:10);
    - [e_verbose] the package variable Verbose (pdf/logger.go:8): [None] is the
      nil pointer it is when the library is used without main.go. *)
Record env := mkenv {
  e_md5 : bytes -> bytes;
  e_aes_dec : bytes -> bytes -> bytes;
  e_zlib : bytes -> option (bytes * bool);
  e_lzw : bytes -> bytes * bool;
  e_tiff_lzw : bytes -> bytes * bool;
  e_fmt : num -> bytes;
  e_verbose : option bool
}.

(** Debug, pdf/logger.go:10-19: dereferences Verbose; its output on stderr is
    not modelled. *)
Definition debug (E : env) : res unit :=
  match e_verbose E with None => Panic | Some _ => Ok tt end.

(** XrefEntry, pdf/xref.go:9-15 *)
Record xentry := mkxe {
  x_off : Z;
  x_gen : Z;
  x_type : Z;
  x_enc : bool;
  x_stm : bool
}.

(** NewXrefEntry, pdf/xref.go:17-19 *)
Definition new_xentry (off gen typ : Z) : xentry :=
  {| x_off := off; x_gen := gen; x_type := typ; x_enc := true; x_stm := false |}.

(** pdf/xref.go:3-7 *)
Definition XrefTypeFreeObject : Z := 0.
Definition XrefTypeIndirectObject : Z := 1.
Definition XrefTypeCompressedObject : Z := 2.

(** The Xref map of a Parser, pdf/parser.go:23. *)
Definition xmap := list (Z * xentry).
Definition xget (n : Z) (m : xmap) : option xentry := mget Z.eqb n m.
Definition xset (n : Z) (e : xentry) (m : xmap) : xmap := mset Z.eqb n e m.

(** CryptFilter and its three implementations, pdf/encryption.go:14-16,23,34-36,100-102. *)
Inductive cfilter : Type :=
| CFNone
| CFAES (key : bytes)
| CFRC4 (key : bytes).

(** The fields of SecurityHandler that outlive Init, pdf/encryption.go:144-158. *)
Record sechandler := mksh {
  sh_stream : cfilter;
  sh_string : cfilter;
  sh_file : cfilter;
  sh_filters : list (bytes * cfilter)
}.

(** NewSecurityHandler, pdf/encryption.go:160-167 *)
Definition new_sechandler : sechandler :=
  {| sh_stream := CFNone; sh_string := CFNone; sh_file := CFNone; sh_filters := [] |}.

(** Parser, pdf/parser.go:20-27, without the input itself (an argument). *)
Record pst := mkpst {
  prd : rd;
  pxref : xmap;
  ptrailer : dict;
  psh : sechandler
}.

(** NewParser, pdf/parser.go:29-31 *)
Definition new_parser (file : bytes) : pst :=
  {| prd := open_rd file; pxref := []; ptrailer := []; psh := new_sechandler |}.

Definition with_rd (r : rd) (p : pst) : pst :=
  {| prd := r; pxref := pxref p; ptrailer := ptrailer p; psh := psh p |}.
Definition with_xref (x : xmap) (p : pst) : pst :=
  {| prd := prd p; pxref := x; ptrailer := ptrailer p; psh := psh p |}.
Definition with_trailer (t : dict) (p : pst) : pst :=
  {| prd := prd p; pxref := pxref p; ptrailer := t; psh := psh p |}.
Definition with_sh (h : sechandler) (p : pst) : pst :=
  {| prd := prd p; pxref := pxref p; ptrailer := ptrailer p; psh := h |}.

(** Code that runs on a parser. *)
Definition M (A : Type) := pst -> res (A * pst).
Definition ret {A} (a : A) : M A := fun p => Ok (a, p).
Definition bind {A B} (m : M A) (k : A -> M B) : M B :=
  fun p => match m p with Ok (a, p') => k a p' | Panic => Panic | OutOfFuel => OutOfFuel end.
Definition mpanic {A} : M A := fun _ => Panic.
(** lift a reader operation / a pure result *)
Definition onrd {A} (f : rd -> A * rd) : M A :=
  fun p => let '(a, r) := f (prd p) in Ok (a, with_rd r p).
Definition onrdr {A} (f : rd -> res (A * rd)) : M A :=
  fun p => match f (prd p) with Ok (a, r) => Ok (a, with_rd r p) | Panic => Panic | OutOfFuel => OutOfFuel end.
Definition lift {A} (x : res A) : M A :=
  fun p => match x with Ok a => Ok (a, p) | Panic => Panic | OutOfFuel => OutOfFuel end.

(** Parser.Seek, pdf/parser.go:462-465 *)
Definition pseek (file : bytes) (off : Z) : M unit :=
  fun p => Ok (tt, with_rd (seek file off (prd p)) p).

Declare Scope m_scope.
Delimit Scope m_scope with m.
Notation "x <- m ;; k" := (bind m (fun x => k)) (at level 61, m at next level, right associativity) : m_scope.
Notation "' x <- m ;; k" := (bind m (fun x => k)) (at level 61, x pattern, m at next level, right associativity) : m_scope.
Notation "m ;;; k" := (bind m (fun _ => k)) (at level 61, right associativity) : m_scope.
