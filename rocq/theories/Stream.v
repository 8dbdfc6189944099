(** Stream.v -- the byte-level part of ReadStream, pdf/parser.go:907-977. *)
From Verif Require Import Base Msg Reader Lexer.
From Coq Require Import Strings.String.

(** pdf/parser.go:911-935: skip to the start of the data; [false]: end of file
    was hit and ReadStream returns the empty slice at once. *)
Fixpoint skip_eol_loop (n : nat) (s : rd) : bool * rd :=
  match n with
  | O => (false, s)
  | S n' =>
      match read_byte s with
      | (None, s) => (false, s)
      | (Some b, s) =>
          if beq b x0a then (true, s)
          else if beq b x0d then
            match read_byte s with
            | (None, s) => (false, s)
            | (Some b, s) => (true, if beq b x0a then s else unread_byte s)
            end
          else skip_eol_loop n' s
      end
  end.

(** pdf/parser.go:948-958: drop one end-of-line marker from the end. *)
Definition trim_eol (d : bytes) : bytes :=
  match rev d with
  | x0a :: x0d :: r => rev r
  | x0a :: r => rev r
  | x0d :: r => rev r
  | _ => d
  end.

(** pdf/parser.go:946-977: [endb] is end_buff, [acc] is stream_data. *)
Fixpoint stream_loop (n : nat) (endb acc : bytes) (s : rd) : bytes * rd :=
  match n with
  | O => (acc, s)
  | S n' =>
      if bseq endb (lit "endstream") then (trim_eol acc, s)
      else
        match endb with
        | [] => (acc, s)
        | b :: e =>
            match read_byte s with
            | (None, s) => (acc ++ [b] ++ e, log_error UnclosedStream s)
            | (Some b2, s) => stream_loop n' (e ++ [b2]) (acc ++ [b]) s
            end
        end
  end.

(** pdf/parser.go:907-977; [None]: returned early with an empty slice (no
    decryption or decoding).  The 9 bytes of pdf/parser.go:939-943 come from a
    single Read call and may be fewer. *)
Definition read_stream_raw (s : rd) : option bytes * rd :=
  match skip_eol_loop (S (List.length (rest s))) s with
  | (false, s) => (None, s)
  | (true, s) =>
      let '(got, s) := read_upto 9 s in
      let endb := match got with Some b => b | None => [] end in
      let '(d, s) := stream_loop (S (List.length (rest s))) endb [] s in
      (Some d, s)
  end.
