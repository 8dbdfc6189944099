(** ReadObj.v -- ReadObject, ReadArray, ReadDictionary, ReadCommand,
    ReadString, ReadHexString of pdf/parser.go.

    The recursion through nested containers and the element loops use explicit
    fuel and return [OutOfFuel] when it runs out; ReadObjP.v proves that fuel
    larger than the number of bytes left always suffices. *)
From Verif Require Import Base Msg Reader Num Lexer Obj.
From Coq Require Import Strings.String.

(** ReadString, pdf/parser.go:994-1132 (scanning, then decryption). *)
Definition read_string (dec : decryptor) (s : rd) : res (bytes * rd) :=
  match read_string_raw s with
  | (None, s) => Ok ([], s)
  | (Some v, s) => rbind (dec v) (fun v => Ok (v, s))
  end.

(** ReadHexString, pdf/parser.go:666-707 (scanning, then decryption). *)
Definition read_hex_string (dec : decryptor) (s : rd) : res (bytes * rd) :=
  match read_hex_raw s with
  | (None, s) => Ok ([], s)
  | (Some v, s) => rbind (dec v) (fun v => Ok (v, s))
  end.

(** ReadObject's handling of numbers and references, pdf/parser.go:547-569. *)
Definition read_num_or_ref (file : bytes) (s : rd) : obj * rd :=
  let '(v, s) := read_number s in
  let offset := pos s in
  let '((g, ok), s) := read_int s in
  if ok then
    let '(kw, s) := read_keyword s in
    if bseq kw (lit "R") then (ORef (num_int v) g, s)
    else (ONum v, seek file offset s)
  else (ONum v, seek file offset s).

Section Containers.
  (** the recursive call of ReadObject *)
  Variable ro : rd -> res ((obj * oerr) * rd).

  (** ReadArray's loop, pdf/parser.go:588-599 *)
  Fixpoint array_loop (n : nat) (acc : list obj) (s : rd) : res (list obj * rd) :=
    match n with
    | O => OutOfFuel
    | S n' =>
        rbind (ro s) (fun '((o, e), s) =>
          match e with
          | EReadError => Ok (acc, log_error UnclosedArray s)
          | EEndOfArray => Ok (acc, s)
          | _ => array_loop n' (acc ++ [o]) s
          end)
    end.

  (** ReadArray, pdf/parser.go:575-603 *)
  Definition read_array_with (n : nat) (s : rd) : res (list obj * rd) :=
    let s := consume_ws s in
    match read_byte s with
    | (None, s) => Ok ([], s)
    | (Some b, s) => if beq b "["%byte then array_loop n [] s else Ok ([], s)
    end.

  (** ReadDictionary's loop, pdf/parser.go:634-662 *)
  Fixpoint dict_loop (n : nat) (acc : dict) (s : rd) : res (dict * rd) :=
    match n with
    | O => OutOfFuel
    | S n' =>
        rbind (ro s) (fun '((o, e), s) =>
          match e with
          | EReadError => Ok (acc, log_error UnclosedDictionary s)
          | EEndOfDictionary => Ok (acc, s)
          | _ =>
              match o with
              | OName key =>
                  rbind (ro s) (fun '((v, e), s) =>
                    match e with
                    | EReadError | EEndOfDictionary =>
                        Ok (acc, log_error MissingDictionaryValue s)
                    | _ => dict_loop n' (dset key v acc) s
                    end)
              | _ => dict_loop n' acc (log_error InvalidDictionaryKeyType s)
              end
          end)
    end.

  (** ReadDictionary, pdf/parser.go:620-664.  The two marker bytes come from one
      Read call into a zeroed two-byte slice, so that a short read of one byte
      compares as that byte followed by 0. *)
  Definition read_dict_with (n : nat) (s : rd) : res (dict * rd) :=
    let s := consume_ws s in
    match read_upto 2 s with
    | (None, s) => Ok ([], s)
    | (Some b, s) =>
        if bseq (firstn 2 (b ++ [x00; x00])) (lit "<<") then dict_loop n [] s
        else Ok ([], s)
    end.
End Containers.

(** ReadObject, pdf/parser.go:496-573 *)
Fixpoint read_object (fuel : nat) (file : bytes) (dec : decryptor) (s : rd)
  : res ((obj * oerr) * rd) :=
  match fuel with
  | O => OutOfFuel
  | S f =>
      let s := consume_ws s in
      let '(b, s) := peek2 s in
      match b with
      | [] => Ok ((KEYWORD_NULL, EReadError), s)
      | b0 :: _ =>
          if beq b0 "/"%byte then
            let '(v, s) := read_name s in Ok ((OName v, ENone), s)
          else if beq b0 "["%byte then
            rbind (read_array_with (read_object f file dec) f s)
                  (fun '(l, s) => Ok ((OArr l, ENone), s))
          else if beq b0 "]"%byte then Ok ((KEYWORD_NULL, EEndOfArray), discard 1 s)
          else if beq b0 "("%byte then
            rbind (read_string dec s) (fun '(v, s) => Ok ((OStr v, ENone), s))
          else if beq b0 ")"%byte then Ok ((KEYWORD_NULL, EEndOfString), discard 1 s)
          else if bseq b (lit "<<") then
            rbind (read_dict_with (read_object f file dec) f s)
                  (fun '(d, s) => Ok ((ODict d, ENone), s))
          else if bseq b (lit ">>") then Ok ((KEYWORD_NULL, EEndOfDictionary), discard 2 s)
          else if beq b0 "<"%byte then
            rbind (read_hex_string dec s) (fun '(v, s) => Ok ((OStr v, ENone), s))
          else if beq b0 ">"%byte then Ok ((KEYWORD_NULL, EEndOfHexString), discard 1 s)
          else if is_digit b0 || beq b0 "+"%byte || beq b0 "-"%byte || beq b0 "."%byte then
            let '(o, s) := read_num_or_ref file s in Ok ((o, ENone), s)
          else let '(v, s) := read_keyword s in Ok ((OKw v, ENone), s)
      end
  end.

(** The fuel that always suffices at a reader state (ReadObjP.v). *)
Definition enough (s : rd) : nat := S (List.length (rest s)).

(** The exported methods, with sufficient fuel. *)
(** ReadObject, pdf/parser.go:496 *)
Definition ReadObject (file : bytes) (dec : decryptor) (s : rd) := read_object (enough s) file dec s.
(** ReadArray, pdf/parser.go:575 *)
Definition ReadArray (file : bytes) (dec : decryptor) (s : rd) :=
  read_array_with (read_object (enough s) file dec) (enough s) s.
(** ReadDictionary, pdf/parser.go:620 *)
Definition ReadDictionary (file : bytes) (dec : decryptor) (s : rd) :=
  read_dict_with (read_object (enough s) file dec) (enough s) s.

(** ReadCommand, pdf/parser.go:605-618: (keyword, operands, error). *)
Fixpoint read_command_loop (n : nat) (file : bytes) (ops : list obj) (s : rd)
  : res (((bytes * list obj) * oerr) * rd) :=
  match n with
  | O => OutOfFuel
  | S n' =>
      rbind (ReadObject file no_decryptor s) (fun '((o, e), s) =>
        match e with
        | ENone =>
            match o with
            | OKw k => Ok (((k, ops), ENone), s)
            | _ => read_command_loop n' file (ops ++ [o]) s
            end
        | _ => Ok (((lit "null", ops), e), s)
        end)
  end.
Definition ReadCommand (file : bytes) (s : rd) := read_command_loop (enough s) file [] s.
