(** Lexer.v -- the byte-level token readers of pdf/parser.go.

    Every loop of this file consumes a byte of [rest] per iteration.  It is a
    recursion on a fuel that the enclosing definition sets to the number of
    bytes left plus one; LexerP.v proves for each of them the unfolding equation
    of the Go loop, so that the branch for exhausted fuel is never taken. *)
From Verif Require Import Base Msg Reader Num.
From Coq Require Import Strings.String.

(** pdf/parser.go:17-18 *)
Definition whitespace : bytes := [x00; x09; x0a; x0c; x0d; x20].
Definition delimiters : bytes := lit "()<>[]/%".

Definition is_ws (b : byte) : bool := inb b whitespace.
Definition is_delim (b : byte) : bool := inb b delimiters.

(** [b >= '0' && b <= '9'] *)
Definition is_digit (b : byte) : bool := (48 <=? bv b) && (bv b <=? 57).
(** [b >= '0' && b <= '7'] *)
Definition is_octal (b : byte) : bool := (48 <=? bv b) && (bv b <=? 55).

(** IsHex, pdf/utility.go:29-31 *)
Definition is_hex (b : byte) : bool :=
  ((48 <=? bv b) && (bv b <=? 57)) || ((97 <=? bv b) && (bv b <=? 102))
  || ((65 <=? bv b) && (bv b <=? 70)).

(** Digit value used by strconv.ParseUint(_, 16, _). *)
Definition hexval (b : byte) : Z :=
  let v := bv b in
  if (48 <=? v) && (v <=? 57) then v - 48
  else if (97 <=? v) && (v <=? 102) then v - 87
  else v - 55.

(** strconv.ParseUint(string([]byte{a, b}), 16, 8) of two hex digits. *)
Definition hex2 (a b : byte) : byte := zb (16 * hexval a + hexval b).

(** consumeComment, pdf/parser.go:1153-1179 *)
Fixpoint consume_comment_loop (n : nat) (s : rd) : rd :=
  match n with
  | O => s
  | S n' =>
      match read_byte s with
      | (None, s) => s
      | (Some b, s) =>
          if beq b x0a then s
          else if beq b x0d then
            match read_byte s with
            | (None, s) => s
            | (Some b, s) => if beq b x0a then s else unread_byte s
            end
          else consume_comment_loop n' s
      end
  end.
Definition consume_comment (s : rd) : rd :=
  consume_comment_loop (S (List.length (rest s))) s.

(** consumeWhitespace, pdf/parser.go:1135-1151 *)
Fixpoint consume_ws_loop (n : nat) (s : rd) : rd :=
  match n with
  | O => s
  | S n' =>
      match read_byte s with
      | (None, s) => s
      | (Some b, s) =>
          if beq b "%"%byte then consume_ws_loop n' (consume_comment s)
          else if is_ws b then consume_ws_loop n' s
          else unread_byte s
      end
  end.
Definition consume_ws (s : rd) : rd :=
  consume_ws_loop (S (List.length (rest s))) s.

(** ReadInt64, pdf/parser.go:714-749; value * 10 + digit wraps like int64. *)
Fixpoint read_int_loop (n : nat) (v : Z) (s : rd) : Z * rd :=
  match n with
  | O => (v, s)
  | S n' =>
      match read_byte s with
      | (None, s) => (v, s)
      | (Some b, s) =>
          if is_digit b then read_int_loop n' (wrap64 (v * 10 + (bv b - 48))) s
          else (v, unread_byte s)
      end
  end.
Definition read_int64 (s : rd) : (Z * bool) * rd :=
  let s := consume_ws s in
  match read_byte s with
  | (None, s) => ((0, false), unread_byte s)
  | (Some b, s) =>
      if is_digit b then
        let '(v, s) := read_int_loop (S (List.length (rest s))) (bv b - 48) s in
        ((v, true), s)
      else ((0, false), unread_byte s)
  end.
(** ReadInt, pdf/parser.go:709-712 (int is int64). *)
Definition read_int (s : rd) : (Z * bool) * rd := read_int64 s.

(** ReadKeyword, pdf/parser.go:751-777 *)
Fixpoint read_keyword_loop (n : nat) (acc : bytes) (s : rd) : bytes * rd :=
  match n with
  | O => (acc, s)
  | S n' =>
      match read_byte s with
      | (None, s) => (acc, s)
      | (Some b, s) =>
          if is_ws b || is_delim b then (acc, unread_byte s)
          else read_keyword_loop n' (acc ++ [b]) s
      end
  end.
Definition read_keyword (s : rd) : bytes * rd :=
  let s := consume_ws s in
  read_keyword_loop (S (List.length (rest s))) [] s.

(** ReadObjectHeader, pdf/parser.go:476-494: (number, generation, ok). *)
Definition read_object_header (s : rd) : ((Z * Z) * bool) * rd :=
  let '((n, ok), s) := read_int s in
  if ok then
    let '((g, ok), s) := read_int s in
    if ok then
      let '(kw, s) := read_keyword s in
      (((n, g), bseq kw (lit "obj")), s)
    else (((n, g), false), s)
  else (((n, 0), false), s).

(** ReadName, pdf/parser.go:809-820: the two-digit hex code after '#'. *)
Definition read_name_code (s : rd) : byte * rd :=
  match read_byte s with
  | (None, s) => (hex2 "0" "0", s)
  | (Some a, s) =>
      if is_hex a then
        match read_byte s with
        | (None, s) => (hex2 a "0", s)
        | (Some b, s) =>
            if is_hex b then (hex2 a b, s)
            else (hex2 a "0", unread_byte (log_error InvalidNameEscapeChar s))
        end
      else (hex2 "0" "0", unread_byte (log_error InvalidNameEscapeChar s))
  end.

(** ReadName, pdf/parser.go:827: the escaped byte did not need an escape. *)
Definition name_needless (b : byte) : bool :=
  (33 <=? bv b) && (bv b <=? 126) && negb (beq b "#"%byte) && negb (is_delim b).

(** ReadName, pdf/parser.go:779-837 *)
Fixpoint read_name_loop (n : nat) (acc : bytes) (s : rd) : bytes * rd :=
  match n with
  | O => (acc, s)
  | S n' =>
      match read_byte s with
      | (None, s) => (acc, s)
      | (Some b, s) =>
          if is_delim b || is_ws b then (acc, unread_byte s)
          else if beq b "#"%byte then
            let '(c, s) := read_name_code s in
            let s := if name_needless c then log_error UnnecessaryEscapeName s else s in
            read_name_loop n' (acc ++ [c]) s
          else read_name_loop n' (acc ++ [b]) s
      end
  end.
Definition read_name (s : rd) : bytes * rd :=
  let s := consume_ws s in
  match read_byte s with
  | (None, s) => ([], s)
  | (Some b, s) =>
      if beq b "/"%byte then read_name_loop (S (List.length (rest s))) [] s
      else ([], s)
  end.

(** ReadHexString, pdf/parser.go:679-706.  [c1] is the first digit of the pair
    being read, if there is one already.  [acc] is the string builder. *)
Fixpoint read_hex_loop (n : nat) (c1 : option byte) (acc : bytes) (s : rd) : bytes * rd :=
  match n with
  | O => (acc, s)
  | S n' =>
      let s := consume_ws s in
      let finish s :=
        (match c1 with Some a => acc ++ [hex2 a "0"] | None => acc end, s) in
      match read_byte s with
      | (None, s) => finish (log_error UnclosedHexString s)
      | (Some b, s) =>
          if beq b ">"%byte then finish s
          else if negb (is_hex b) then
            read_hex_loop n' c1 acc (log_error InvalidHexStringChar s)
          else
            match c1 with
            | None => read_hex_loop n' (Some b) acc s
            | Some a => read_hex_loop n' None (acc ++ [hex2 a b]) s
            end
      end
  end.
(** ReadHexString before decryption, pdf/parser.go:666-677; [None]: no '<'
    (the empty string is returned without calling the decryptor). *)
Definition read_hex_raw (s : rd) : option bytes * rd :=
  let s := consume_ws s in
  match read_byte s with
  | (None, s) => (None, s)
  | (Some b, s) =>
      if beq b "<"%byte then
        let '(v, s) := read_hex_loop (S (List.length (rest s))) None [] s in (Some v, s)
      else (None, s)
  end.

(** ReadString, pdf/parser.go:1069-1089: up to two more octal digits. *)
Fixpoint read_octal_loop (i : nat) (code : bytes) (s : rd) : bytes * rd :=
  match i with
  | O => (code, s)
  | S i' =>
      match read_byte s with
      | (None, s) => (code, log_error UnclosedStringOctal s)
      | (Some b, s) =>
          if is_octal b then read_octal_loop i' (code ++ [b]) s
          else (code, unread_byte s)
      end
  end.

(** Value of octal digits, strconv.ParseUint(_, 8, _). *)
Definition octval (l : bytes) : Z := fold_left (fun v b => v * 8 + (bv b - 48)) l 0.

(** ReadString, pdf/parser.go:1092-1099: a code above 255 gives its last digit back. *)
Definition octal_byte (code : bytes) (s : rd) : byte * rd :=
  if octval code <=? 255 then (zb (octval code), s)
  else (zb (octval (removelast code)), unread_byte (log_error InvalidOctal s)).

(** ReadString, pdf/parser.go:1102: the octal code was not needed. *)
Definition string_needless (b : byte) : bool :=
  (33 <=? bv b) && (bv b <=? 126) && negb (beq b "\"%byte)
  && negb (beq b "("%byte) && negb (beq b ")"%byte).

(** ReadString, pdf/parser.go:1053-1064: the special escapes. *)
Definition unescape (b : byte) : byte :=
  if beq b "n"%byte then x0a
  else if beq b "r"%byte then x0d
  else if beq b "t"%byte then x09
  else if beq b "b"%byte then x08
  else if beq b "f"%byte then x0c
  else b.

(** ReadString, pdf/parser.go:1011-1126: [opn] open parentheses, [acc] the
    string builder. *)
Fixpoint read_string_loop (n : nat) (opn : Z) (acc : bytes) (s : rd) : bytes * rd :=
  match n with
  | O => (acc, s)
  | S n' =>
      match read_byte s with
      | (None, s) => (acc, log_error UnclosedString s)
      | (Some b, s) =>
          if beq b "\"%byte then
            match read_byte s with
            | (None, s) => (acc ++ ["\"%byte], log_error UnclosedStringEscape s)
            | (Some b, s) =>
                if beq b x0a then read_string_loop n' opn acc s
                else if beq b x0d then
                  match read_byte s with
                  | (None, s) => (acc, log_error UnclosedStringEscape s)
                  | (Some b, s) =>
                      read_string_loop n' opn acc (if beq b x0a then s else unread_byte s)
                  end
                else
                  let b := unescape b in
                  if is_octal b then
                    let '(code, s) := read_octal_loop 2 [b] s in
                    let '(b, s) := octal_byte code s in
                    let s := if string_needless b then log_error UnnecessaryEscapeString s else s in
                    read_string_loop n' opn (acc ++ [b]) s
                  else read_string_loop n' opn (acc ++ [b]) s
            end
          else
            let opn := if beq b "("%byte then opn + 1
                       else if beq b ")"%byte then opn - 1 else opn in
            if opn =? 0 then (acc, s)
            else read_string_loop n' opn (acc ++ [b]) s
      end
  end.
(** ReadString before decryption, pdf/parser.go:994-1009; [None]: no '('. *)
Definition read_string_raw (s : rd) : option bytes * rd :=
  let s := consume_ws s in
  match read_byte s with
  | (None, s) => (None, s)
  | (Some b, s) =>
      if beq b "("%byte then
        let '(v, s) := read_string_loop (S (List.length (rest s))) 1 [] s in (Some v, s)
      else (None, s)
  end.

(** ReadNumber, pdf/parser.go:864-879: the digits before the point; returns the
    value and whether a point was read. *)
Fixpoint read_num_int_loop (n : nat) (v : num) (s : rd) : (num * bool) * rd :=
  match n with
  | O => ((v, false), s)
  | S n' =>
      match read_byte s with
      | (None, s) => ((v, false), s)
      | (Some b, s) =>
          if is_digit b then read_num_int_loop n' (num_push v (bv b - 48)) s
          else if beq b "."%byte then ((v, true), s)
          else ((v, false), unread_byte s)
      end
  end.

(** ReadNumber, pdf/parser.go:881-896: the digits behind the point, the i-th
    of which is added as digit / (10 * i). *)
Fixpoint read_num_real_loop (n : nat) (i : Z) (v : num) (s : rd) : num * rd :=
  match n with
  | O => (v, s)
  | S n' =>
      match read_byte s with
      | (None, s) => (v, s)
      | (Some b, s) =>
          if is_digit b then read_num_real_loop n' (i + 1) (num_frac v (bv b - 48) i) s
          else (v, unread_byte s)
      end
  end.

(** ReadNumber, pdf/parser.go:839-905 *)
Definition read_number (s : rd) : num * rd :=
  let s := consume_ws s in
  match read_byte s with
  | (None, s) => (num_zero, s)
  | (Some b, s) =>
      let body v is_real s :=
        let '((v, is_real), s) :=
          if is_real : bool then ((v, true), s)
          else read_num_int_loop (S (List.length (rest s))) v s in
        if is_real : bool then read_num_real_loop (S (List.length (rest s))) 1 v s
        else (v, s) in
      if beq b "-"%byte then
        let '(v, s) := body num_zero false s in (num_neg v, s)
      else if is_digit b then body (num_push num_zero (bv b - 48)) false s
      else if beq b "."%byte then body num_zero true s
      else if beq b "+"%byte then body num_zero false s
      else (num_zero, unread_byte s)
  end.
