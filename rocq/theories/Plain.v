(** Plain.v -- the readers of Lexer.v and ReadObj.v again, over a plain list of
    bytes: no buffer, no positions, no put-back, no fuel in the lexer.  LexerP.v
    and ReadObjP.v prove that the buffered readers compute exactly these
    functions (for every buffer state), so that properties can be proved here.
    Every function returns its result, the unread bytes and the messages. *)
From Verif Require Import Base Msg Num Lexer Obj.
From Coq Require Import Strings.String.

(** consumeWhitespace, consumeComment: pdf/parser.go:1135-1179 *)
Fixpoint p_ws (l : bytes) : bytes :=
  match l with
  | [] => []
  | b :: r => if beq b "%"%byte then p_cm r else if is_ws b then p_ws r else l
  end
with p_cm (l : bytes) : bytes :=
  match l with
  | [] => []
  | b :: r => if beq b x0a || beq b x0d then p_ws r else p_cm r
  end.

(** ReadInt64, pdf/parser.go:714-749 (result when the token is complete) *)
Fixpoint p_digits (v : Z) (l : bytes) : Z * bytes :=
  match l with
  | [] => (v, [])
  | b :: r => if is_digit b then p_digits (wrap64 (v * 10 + (bv b - 48))) r else (v, l)
  end.
Definition p_int (l : bytes) : (Z * bool) * bytes :=
  match p_ws l with
  | [] => ((0, false), [])
  | b :: r => if is_digit b then let '(v, r) := p_digits (bv b - 48) r in ((v, true), r)
              else ((0, false), b :: r)
  end.

(** ReadKeyword, pdf/parser.go:751-777 *)
Fixpoint p_kw (l : bytes) : bytes * bytes :=
  match l with
  | [] => ([], [])
  | b :: r => if is_ws b || is_delim b then ([], l)
              else let '(k, r) := p_kw r in (b :: k, r)
  end.
Definition p_keyword (l : bytes) : bytes * bytes := p_kw (p_ws l).

(** prepend an output byte and messages *)
Definition out (ms : list msg) (b : byte) (x : (bytes * bytes) * list msg) : (bytes * bytes) * list msg :=
  let '((v, r), ms') := x in ((b :: v, r), ms ++ ms').

(** message for a superfluous name escape, pdf/parser.go:827-829 *)
Definition name_msg (c : byte) : list msg := if name_needless c then [UnnecessaryEscapeName] else [].

(** ReadName behind the slash, pdf/parser.go:790-835 *)
Fixpoint p_name (l : bytes) : (bytes * bytes) * list msg :=
  match l with
  | [] => (([], []), [])
  | b :: r =>
      if is_delim b || is_ws b then (([], l), [])
      else if beq b "#"%byte then
        match r with
        | [] => out (name_msg (hex2 "0" "0")) (hex2 "0" "0") (([], []), [])
        | a :: r1 =>
            if is_hex a then
              match r1 with
              | [] => out (name_msg (hex2 a "0")) (hex2 a "0") (([], []), [])
              | c :: r2 =>
                  if is_hex c then out (name_msg (hex2 a c)) (hex2 a c) (p_name r2)
                  else out (InvalidNameEscapeChar :: name_msg (hex2 a "0")) (hex2 a "0") (p_name r1)
              end
            else out (InvalidNameEscapeChar :: name_msg (hex2 "0" "0")) (hex2 "0" "0") (p_name r)
        end
      else out [] b (p_name r)
  end.

(** ReadHexString behind the '<', pdf/parser.go:679-706; [c1] is the pending digit *)
Definition hex_fin (c1 : option byte) : bytes :=
  match c1 with Some a => [hex2 a "0"] | None => [] end.
Definition add_msg (ms : list msg) (x : (bytes * bytes) * list msg) : (bytes * bytes) * list msg :=
  let '(v, ms') := x in (v, ms ++ ms').
Fixpoint p_hex (c1 : option byte) (l : bytes) : (bytes * bytes) * list msg :=
  match l with
  | [] => ((hex_fin c1, []), [UnclosedHexString])
  | b :: r =>
      if beq b "%"%byte then p_hexcm c1 r
      else if is_ws b then p_hex c1 r
      else if beq b ">"%byte then ((hex_fin c1, r), [])
      else if negb (is_hex b) then add_msg [InvalidHexStringChar] (p_hex c1 r)
      else match c1 with
           | None => p_hex (Some b) r
           | Some a => out [] (hex2 a b) (p_hex None r)
           end
  end
with p_hexcm (c1 : option byte) (l : bytes) : (bytes * bytes) * list msg :=
  match l with
  | [] => ((hex_fin c1, []), [UnclosedHexString])
  | b :: r => if beq b x0a || beq b x0d then p_hex c1 r else p_hexcm c1 r
  end.

(** message for a superfluous octal code, pdf/parser.go:1102-1104 *)
Definition str_msg (c : byte) : list msg := if string_needless c then [UnnecessaryEscapeString] else [].
(** an octal code of the given digits *)
Definition oct (l : bytes) : byte := zb (octval l).

(** ReadString behind the '(', pdf/parser.go:1011-1126 *)
Fixpoint p_str (opn : Z) (l : bytes) : (bytes * bytes) * list msg :=
  match l with
  | [] => (([], []), [UnclosedString])
  | b :: r =>
      if beq b "\"%byte then
        match r with
        | [] => ((["\"%byte], []), [UnclosedStringEscape])
        | c :: r1 =>
            if beq c x0a then p_str opn r1
            else if beq c x0d then
              match r1 with
              | [] => (([], []), [UnclosedStringEscape])
              | d :: r2 => if beq d x0a then p_str opn r2 else p_str opn r1
              end
            else if is_octal c then
              match r1 with
              | [] => out (UnclosedStringOctal :: str_msg (oct [c])) (oct [c]) (([], []), [UnclosedString])
              | d :: r2 =>
                  if is_octal d then
                    match r2 with
                    | [] => out (UnclosedStringOctal :: str_msg (oct [c; d])) (oct [c; d])
                                (([], []), [UnclosedString])
                    | e :: r3 =>
                        if is_octal e then
                          if octval [c; d; e] <=? 255
                          then out (str_msg (oct [c; d; e])) (oct [c; d; e]) (p_str opn r3)
                          else out (InvalidOctal :: str_msg (oct [c; d])) (oct [c; d]) (p_str opn r2)
                        else out (str_msg (oct [c; d])) (oct [c; d]) (p_str opn r2)
                    end
                  else out (str_msg (oct [c])) (oct [c]) (p_str opn r1)
              end
            else out [] (unescape c) (p_str opn r1)
        end
      else
        let opn' := if beq b "("%byte then opn + 1
                    else if beq b ")"%byte then opn - 1 else opn in
        if opn' =? 0 then (([], r), []) else out [] b (p_str opn' r)
  end.

(** ReadNumber, pdf/parser.go:839-905 *)
Fixpoint p_num_int (v : num) (l : bytes) : (num * bool) * bytes :=
  match l with
  | [] => ((v, false), [])
  | b :: r => if is_digit b then p_num_int (num_push v (bv b - 48)) r
              else if beq b "."%byte then ((v, true), r)
              else ((v, false), l)
  end.
Fixpoint p_num_real (i : Z) (v : num) (l : bytes) : num * bytes :=
  match l with
  | [] => (v, [])
  | b :: r => if is_digit b then p_num_real (i + 1) (num_frac v (bv b - 48) i) r else (v, l)
  end.
Definition p_num_body (v : num) (real : bool) (l : bytes) : num * bytes :=
  let '((v, real), l) := if real then ((v, true), l) else p_num_int v l in
  if real then p_num_real 1 v l else (v, l).
Definition p_number (l : bytes) : num * bytes :=
  match p_ws l with
  | [] => (num_zero, [])
  | b :: r =>
      if beq b "-"%byte then let '(v, r) := p_num_body num_zero false r in (num_neg v, r)
      else if is_digit b then p_num_body (num_push num_zero (bv b - 48)) false r
      else if beq b "."%byte then p_num_body num_zero true r
      else if beq b "+"%byte then p_num_body num_zero false r
      else (num_zero, b :: r)
  end.

(** ReadObject's numbers and references, pdf/parser.go:547-569 *)
Definition p_num_or_ref (l : bytes) : obj * bytes :=
  let '(v, r) := p_number l in
  let '((g, ok), r2) := p_int r in
  if ok then
    let '(kw, r3) := p_keyword r2 in
    if bseq kw (lit "R") then (ORef (num_int v) g, r3) else (ONum v, r)
  else (ONum v, r).

(** Results of object readers: value, unread bytes, messages. *)
Definition pres (A : Type) := res (A * (bytes * list msg)).
Definition pthen {A B} (ms : list msg) (x : pres A) (f : A -> B) : pres B :=
  rbind x (fun '(a, (r, ms')) => Ok (f a, (r, ms ++ ms'))).

Section Containers.
  Variable ro : bytes -> pres (obj * oerr).

  (** ReadArray's loop, pdf/parser.go:588-599 *)
  Fixpoint p_array (n : nat) (acc : list obj) (l : bytes) : pres (list obj) :=
    match n with
    | O => OutOfFuel
    | S n' =>
        rbind (ro l) (fun '((o, e), (r, ms)) =>
          match e with
          | EReadError => Ok (acc, (r, ms ++ [UnclosedArray]))
          | EEndOfArray => Ok (acc, (r, ms))
          | _ => pthen ms (p_array n' (acc ++ [o]) r) (fun x => x)
          end)
    end.

  (** ReadDictionary's loop, pdf/parser.go:634-662 *)
  Fixpoint p_dict (n : nat) (acc : dict) (l : bytes) : pres dict :=
    match n with
    | O => OutOfFuel
    | S n' =>
        rbind (ro l) (fun '((o, e), (r, ms)) =>
          match e with
          | EReadError => Ok (acc, (r, ms ++ [UnclosedDictionary]))
          | EEndOfDictionary => Ok (acc, (r, ms))
          | _ =>
              match o with
              | OName key =>
                  rbind (ro r) (fun '((v, e), (r, ms2)) =>
                    match e with
                    | EReadError | EEndOfDictionary =>
                        Ok (acc, (r, (ms ++ ms2) ++ [MissingDictionaryValue]))
                    | _ => pthen (ms ++ ms2) (p_dict n' (dset key v acc) r) (fun x => x)
                    end)
              | _ => pthen (ms ++ [InvalidDictionaryKeyType]) (p_dict n' acc r) (fun x => x)
              end
          end)
    end.
End Containers.

(** decrypt a raw string, pdf/parser.go:706,1131 *)
Definition p_dec (dec : decryptor) (x : (bytes * bytes) * list msg) : pres (obj * oerr) :=
  let '((v, r), ms) := x in rbind (dec v) (fun v => Ok ((OStr v, ENone), (r, ms))).

(** ReadObject, pdf/parser.go:496-573 *)
Fixpoint p_object (fuel : nat) (dec : decryptor) (l : bytes) : pres (obj * oerr) :=
  match fuel with
  | O => OutOfFuel
  | S f =>
      match p_ws l with
      | [] => Ok ((KEYWORD_NULL, EReadError), ([], []))
      | b0 :: r =>
          if beq b0 "/"%byte then
            let '((v, r), ms) := p_name r in Ok ((OName v, ENone), (r, ms))
          else if beq b0 "["%byte then
            pthen [] (p_array (p_object f dec) f [] r) (fun x => (OArr x, ENone))
          else if beq b0 "]"%byte then Ok ((KEYWORD_NULL, EEndOfArray), (r, []))
          else if beq b0 "("%byte then p_dec dec (p_str 1 r)
          else if beq b0 ")"%byte then Ok ((KEYWORD_NULL, EEndOfString), (r, []))
          else if bseq (firstn 2 (b0 :: r)) (lit "<<") then
            pthen [] (p_dict (p_object f dec) f [] (tl r)) (fun x => (ODict x, ENone))
          else if bseq (firstn 2 (b0 :: r)) (lit ">>") then
            Ok ((KEYWORD_NULL, EEndOfDictionary), (tl r, []))
          else if beq b0 "<"%byte then p_dec dec (p_hex None r)
          else if beq b0 ">"%byte then Ok ((KEYWORD_NULL, EEndOfHexString), (r, []))
          else if is_digit b0 || beq b0 "+"%byte || beq b0 "-"%byte || beq b0 "."%byte then
            let '(o, r) := p_num_or_ref (b0 :: r) in Ok ((o, ENone), (r, []))
          else let '(v, r) := p_kw (b0 :: r) in Ok ((OKw v, ENone), (r, []))
      end
  end.
