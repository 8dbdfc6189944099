(** Load.v -- Parser.Load, pdf/parser.go:33-92. *)
From Verif Require Import Base Msg Reader Num Lexer Obj ReadObj Env Getters GetObj Regex Xref Security.
From Coq Require Import Strings.String.
Local Open Scope m_scope.

(** pdf/parser.go:74-79: the encryption dictionary itself is not encrypted *)
Definition exempt_encrypt (encrypt : obj) : M unit :=
  fun p =>
    match encrypt with
    | ORef n _ =>
        match xget n (pxref p) with
        | Some e =>
            Ok (tt, with_xref (xset n {| x_off := x_off e; x_gen := x_gen e; x_type := x_type e;
                                          x_enc := false; x_stm := x_stm e |} (pxref p)) p)
        | None => Ok (tt, p)
        end
    | _ => Ok (tt, p)
    end.

(** SetPassword, pdf/parser.go:90-92 *)
Definition set_password (fuel : nat) (E : env) (file : bytes) (password : bytes) : M (option encerr) :=
  fun p => init_security E (Resolve fuel E file) password (ptrailer p) p.

(** Load, pdf/parser.go:33-88.  [ord] is the order in which the repair loop's
    map iteration delivers the scanned objects. *)
Definition load (fuel : nat) (E : env) (ord : xmap -> xmap) (file : bytes) (password : bytes)
  : M (option encerr) :=
  objects <- find_objects fuel E file ;;
  pseek file (zlen file) ;;;
  load_all fuel E file (xref_offsets file objects) ;;;
  repair file (ord objects) ;;;
  fun p =>
    match dget (lit "Encrypt") (ptrailer p) with
    | Some encrypt => (exempt_encrypt encrypt ;;; set_password fuel E file password) p
    | None => Ok (None, p)
    end.
