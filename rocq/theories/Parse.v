(** Parse.v -- pdf.Parse (pdf/pdf.go:8-43), NewOutput and Close
    (pdf/output.go:23-91), main (main.go:32-55). *)
From Verif Require Import Base Msg Reader Num Lexer Obj Env Getters GetObj Load Output Render Extract.
From Coq Require Import Strings.String.

(** What the operating system answers: the content of the input file if
    os.Open succeeds, which output files os.Create can create, and os.Stat on
    the output path. *)
Inductive stat_result : Type := StatExists | StatNotExist | StatError.
Record sys := mksys {
  s_input : option bytes;
  s_create : ofile -> bool;
  s_stat : stat_result
}.

(** Operations on the file system, in the order they happen.  All names are
    relative to the output directory (path.Join(directory, name)).  Messages
    to errors.txt are in the reader's log, not here. *)
Inductive op : Type :=
| OpRemoveAll
| OpMkdirAll
| OpCreate (f : ofile)
| OpEv (e : ev)
| OpClose (f : ofile).

(** pdf/output.go:33-63: the files in order of creation *)
Definition output_files : list ofile :=
  [FCommands; FErrors; FFiles; FJavascript; FRaw; FText; FURLs].

(** pdf/output.go:33-66: create until one fails; the operations, the files
    that are open (non-nil) afterwards and whether all succeeded. *)
Fixpoint create_files (S : sys) (l : list ofile) : (list op * list ofile) * bool :=
  match l with
  | [] => (([], []), true)
  | f :: l' =>
      if s_create S f then
        let '((ops, opened), ok) := create_files S l' in
        ((OpCreate f :: ops, f :: opened), ok)
      else (([OpCreate f], []), false)
  end.

(** NewOutput, pdf/output.go:23-67 *)
Definition new_output (S : sys) : (list op * list ofile) * bool :=
  let '((ops, opened), ok) := create_files S output_files in
  ((OpRemoveAll :: OpMkdirAll :: ops, opened), ok).

Definition ofile_eqb (a b : ofile) : bool :=
  match a, b with
  | FCommands, FCommands | FErrors, FErrors | FFiles, FFiles | FJavascript, FJavascript
  | FRaw, FRaw | FText, FText | FURLs, FURLs => true
  | _, _ => false
  end.
Definition is_open (opened : list ofile) (f : ofile) : bool := existsb (ofile_eqb f) opened.

(** [if test != nil { target.Close() }]; Close on a nil file does nothing. *)
Definition close_if (opened : list ofile) (test target : ofile) : list op :=
  if is_open opened test && is_open opened target then [OpClose target] else [].

(** Output.Close, pdf/output.go:69-91; lines 73-75 test Errors and close Files. *)
Definition close_output (opened : list ofile) : list op :=
  close_if opened FCommands FCommands
  ++ close_if opened FErrors FFiles
  ++ close_if opened FFiles FFiles
  ++ close_if opened FJavascript FJavascript
  ++ close_if opened FRaw FRaw
  ++ close_if opened FText FText
  ++ close_if opened FURLs FURLs.

Section Parse.
  Variable E : env.
  Variable OD : order.
  Local Open Scope x_scope.

  (** one iteration of pdf/pdf.go:33-40 *)
  Definition extract_one (fuel : nat) (file : bytes) (kv : Z * xentry) : X unit :=
    let '(n, e) := kv in
    if x_type e =? XrefTypeIndirectObject then
      xlift (lift (debug E)) ;;;
      o <- xlift (GetObject fuel E file n) ;;
      object_extract E OD (Resolve fuel E file) fuel [0; n] o ;;;
      xout [println FRaw (iobj_string E OD [1; n] o)]
    else xret tt.

  (** pdf/pdf.go:33-40 *)
  Fixpoint extract_all (fuel : nat) (file : bytes) (l : xmap) : X unit :=
    match l with
    | [] => xret tt
    | kv :: l' => extract_one fuel file kv ;;; extract_all fuel file l'
    end.

  (** pdf/pdf.go:27-42: from the first Debug call to the end *)
  Definition parse_body (fuel : nat) (file password : bytes) : X (option encerr) :=
    xlift (lift (debug E)) ;;;
    e <- xlift (load fuel E (o_objects OD) file password) ;;
    match e with
    | Some e => xret (Some e)
    | None =>
        (fun p => extract_all fuel file (o_xref OD (pxref p)) p) ;;;
        xret None
    end.

  (** errors Parse can return *)
  Inductive perr : Type := PNone | POpen | PCreate | PEnc (e : encerr).

  (** Parse, pdf/pdf.go:8-43; output.Close is deferred and runs also when
      the body panics. *)
  Definition parse (fuel : nat) (S : sys) (password : bytes) : list op * res perr :=
    match s_input S with
    | None => ([], Ok POpen)
    | Some file =>
        let '((ops, opened), ok) := new_output S in
        if ok : bool then
          match parse_body fuel file password (new_parser file) with
          | (w, Ok (None, _)) => (ops ++ map OpEv w ++ close_output opened, Ok PNone)
          | (w, Ok (Some e, _)) => (ops ++ map OpEv w ++ close_output opened, Ok (PEnc e))
          | (w, Panic) => (ops ++ map OpEv w ++ close_output opened, Panic)
          | (w, OutOfFuel) => (ops ++ map OpEv w, OutOfFuel)
          end
        else (ops ++ close_output opened, Ok PCreate)
    end.

  (** init and main, main.go:32-55: the number of arguments, -f, the rest as for
      Parse.  The result is the exit code. *)
  Definition main (fuel : nat) (S : sys) (nargs : Z) (overwrite : bool) (password : bytes)
    : list op * res Z :=
    if negb (nargs =? 2) then ([], Ok 1)
    else
      let exists_ := match s_stat S with StatNotExist => false | _ => true end in
      if exists_ && negb overwrite then ([], Ok 0)
      else
        match parse fuel S password with
        | (ops, Ok _) => (ops, Ok 0)
        | (ops, Panic) => (ops, Panic)
        | (ops, OutOfFuel) => (ops, OutOfFuel)
        end.
End Parse.
