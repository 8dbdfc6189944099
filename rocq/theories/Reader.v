(** Reader.v -- the buffered reader under Parser: Go's bufio.Reader (4096 byte
    buffer) over an io.ReadSeeker that delivers as many bytes as are asked for
    and available (os.File on a regular file, bytes.Reader). *)
From Verif Require Import Base Msg.

(** pdf/parser.go:20-27 -- Parser embeds *bufio.Reader and holds the seeker.
    [pos]  logical offset = seeker offset - Buffered() (parser.go:467-473);
    [buf]  Buffered(), so the seeker's own offset is [pos + buf];
    [last] bufio's lastByte, what UnreadByte would put back;
    [rest] the bytes of the file from [pos] to the end;
    [log]  the messages log_error has written so far (parser.go:1181-1185). *)
Record rd := mkrd {
  pos : Z;
  buf : Z;
  last : option byte;
  rest : bytes;
  log : list msg
}.

(** bufio's defaultBufSize; bufio.NewReader at pdf/parser.go:30. *)
Definition bufsize : Z := 4096.

(** bufio.Reader.fill: the buffer is topped up by one Read of the seeker. *)
Definition filled (s : rd) : Z := Z.min bufsize (zlen (rest s)).

(** bufio.Reader.ReadByte.  At end of file nothing changes, in particular
    lastByte keeps its value. *)
Definition read_byte (s : rd) : option byte * rd :=
  match rest s with
  | [] => (None, s)
  | b :: r =>
      (Some b,
       {| pos := pos s + 1;
          buf := (if buf s =? 0 then filled s else buf s) - 1;
          last := Some b; rest := r; log := log s |})
  end.

(** bufio.Reader.UnreadByte; an error (ignored by every caller in /repo)
    leaves the reader unchanged. *)
Definition unread_byte (s : rd) : rd :=
  match last s with
  | None => s
  | Some b =>
      {| pos := pos s - 1; buf := buf s + 1; last := None;
         rest := b :: rest s; log := log s |}
  end.

(** bufio.Reader.Peek(2), pdf/parser.go:501. *)
Definition peek2 (s : rd) : bytes * rd :=
  (firstn 2 (rest s),
   {| pos := pos s; buf := (if buf s <? 2 then filled s else buf s);
      last := None; rest := rest s; log := log s |}).

(** bufio.Reader.Discard(n) for n buffered bytes, pdf/parser.go:516,525,534,543. *)
Definition discard (n : nat) (s : rd) : rd :=
  {| pos := pos s + Z.of_nat n; buf := buf s - Z.of_nat n;
     last := last s; rest := skipn n (rest s); log := log s |}.

(** bufio.Reader.Read(p) with 0 < len(p) = n < 4096: at most one Read of the
    seeker, hence a SHORT READ when fewer than n bytes are buffered.
    [None] is (0, io.EOF). *)
Definition read_upto (n : nat) (s : rd) : option bytes * rd :=
  match rest s with
  | [] => (None, s)
  | _ :: _ =>
      let avail := if buf s =? 0 then filled s else buf s in
      let k := Nat.min n (Z.to_nat avail) in
      let got := firstn k (rest s) in
      (Some got,
       {| pos := pos s + Z.of_nat k; buf := avail - Z.of_nat k;
          last := List.last (map Some got) (last s);
          rest := skipn k (rest s); log := log s |})
  end.

(** Parser.Seek(offset, io.SeekStart), pdf/parser.go:462-465.  bufio's Reset
    drops the buffer first; a negative offset makes the seeker's Seek fail,
    which leaves the seeker where it was: behind the buffered bytes. *)
Definition seek (file : bytes) (off : Z) (s : rd) : rd :=
  if off <? 0
  then {| pos := pos s + buf s; buf := 0; last := None;
          rest := skipn (Z.to_nat (buf s)) (rest s); log := log s |}
  else {| pos := off; buf := 0; last := None; rest := zdrop off file; log := log s |}.

(** NewParser, pdf/parser.go:29-31: a reader at the start of the input. *)
Definition open_rd (file : bytes) : rd :=
  {| pos := 0; buf := 0; last := None; rest := file; log := [] |}.

(** Parser.log_error, pdf/parser.go:1181-1185 and Output.Error, pdf/output.go:106-110
    (for a parser with an output; a parser without one discards the log). *)
Definition log_error (m : msg) (s : rd) : rd :=
  {| pos := pos s; buf := buf s; last := last s; rest := rest s; log := log s ++ [m] |}.
