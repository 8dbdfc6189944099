(** Output.v -- effects of extraction (pdf/output.go) and the monad of code
    that writes output while it runs on a parser. *)
From Verif Require Import Base Msg Reader Num Lexer Obj Env Md5.
From Coq Require Import Strings.String Numbers.DecimalString.
From Coq Require Decimal.

(** The open files of Output, pdf/output.go:12-21. *)
Inductive ofile : Type :=
| FCommands | FErrors | FFiles | FJavascript | FRaw | FText | FURLs.

(** Their names, pdf/output.go:33-63. *)
Definition ofile_name (f : ofile) : bytes :=
  match f with
  | FCommands => lit "commands.txt"
  | FErrors => lit "errors.txt"
  | FFiles => lit "files.txt"
  | FJavascript => lit "javascript.js"
  | FRaw => lit "raw.pdf"
  | FText => lit "contents.txt"
  | FURLs => lit "urls.txt"
  end.

(** What extraction does to the outside world: append to an open output file,
    or ioutil.WriteFile(path.Join(output.Directory, name), data) (output.go:103). *)
Inductive ev : Type :=
| EWrite (f : ofile) (b : bytes)
| EDump (name data : bytes).

(** Code that runs on a parser and writes output: the events are kept also
    when it panics or runs out of fuel. *)
Definition X (A : Type) := pst -> list ev * res (A * pst).
Definition xret {A} (a : A) : X A := fun p => ([], Ok (a, p)).
Definition xbind {A B} (m : X A) (k : A -> X B) : X B :=
  fun p =>
    match m p with
    | (w, Ok (a, p')) => let '(w', r) := k a p' in (w ++ w', r)
    | (w, Panic) => (w, Panic)
    | (w, OutOfFuel) => (w, OutOfFuel)
    end.
Definition xlift {A} (m : M A) : X A := fun p => ([], m p).
Definition xout (w : list ev) : X unit := fun p => (w, Ok (tt, p)).

Declare Scope x_scope.
Delimit Scope x_scope with x.
Notation "x <- m ;; k" := (xbind m (fun x => k)) (at level 61, m at next level, right associativity) : x_scope.
Notation "' x <- m ;; k" := (xbind m (fun x => k)) (at level 61, x pattern, m at next level, right associativity) : x_scope.
Notation "m ;;; k" := (xbind m (fun _ => k)) (at level 61, right associativity) : x_scope.

(** run a list of actions in order *)
Fixpoint xseq (l : list (X unit)) : X unit :=
  match l with
  | [] => xret tt
  | m :: l' => xbind m (fun _ => xseq l')
  end.

(** Go's map iteration order: an arbitrary permutation for each place (the
    [site]: the position of the loop in the execution) where a map is iterated. *)
Definition site := list Z.
Record order := mkorder {
  o_map : site -> forall A : Type, list A -> list A;   (* dictionaries *)
  o_objects : xmap -> xmap;                            (* pdf/parser.go:59 *)
  o_xref : xmap -> xmap                                (* pdf/pdf.go:33 *)
}.

(** encoding/hex.EncodeToString *)
Definition hexdigit (v : Z) : byte := if v <? 10 then zb (48 + v) else zb (87 + v).
Definition hex_encode (d : bytes) : bytes :=
  flat_map (fun b => [hexdigit (bv b / 16); hexdigit (bv b mod 16)]) d.

(** fmt.Fprintln(f, s): the string and a newline. *)
Definition println (f : ofile) (s : bytes) : ev := EWrite f (s ++ [x0a]).

(** fmt.Fprintf(output.Files, "%s:%s\n", hash, name), pdf/output.go:100,
    pdf/object.go:78, pdf/file.go:34,41, pdf/action.go:19 *)
Definition manifest_line (hash name : bytes) : ev :=
  EWrite FFiles (hash ++ lit ":" ++ name ++ [x0a]).

(** unknownHash, pdf/file.go:7 *)
Definition unknownHash : bytes := lit "00000000000000000000000000000000".

(** DumpFile, pdf/output.go:93-104 *)
Definition dump_file (E : env) (name data : bytes) : list ev :=
  let h := hex_encode (e_md5 E data) in
  [manifest_line h name; EDump h data].

(** fmt's %d *)
Fixpoint uint_bytes (u : Decimal.uint) : bytes :=
  match u with
  | Decimal.Nil => []
  | Decimal.D0 u => "0"%byte :: uint_bytes u
  | Decimal.D1 u => "1"%byte :: uint_bytes u
  | Decimal.D2 u => "2"%byte :: uint_bytes u
  | Decimal.D3 u => "3"%byte :: uint_bytes u
  | Decimal.D4 u => "4"%byte :: uint_bytes u
  | Decimal.D5 u => "5"%byte :: uint_bytes u
  | Decimal.D6 u => "6"%byte :: uint_bytes u
  | Decimal.D7 u => "7"%byte :: uint_bytes u
  | Decimal.D8 u => "8"%byte :: uint_bytes u
  | Decimal.D9 u => "9"%byte :: uint_bytes u
  end.
Definition dec_of_N (n : N) : bytes := uint_bytes (N.to_uint n).
Definition dec_of_Z (z : Z) : bytes :=
  if z <? 0 then "-"%byte :: dec_of_N (Z.to_N (- z)) else dec_of_N (Z.to_N z).
