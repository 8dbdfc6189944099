(** Regex.v -- the regular expressions of pdf/parser.go:14-16 and a backtracking
    matcher with Go's leftmost-first preference.

    Go matches runes; every byte class below contains either all bytes above
    127 or none, so matching bytes gives the same match positions. *)
From Verif Require Import Base Lexer.
From Coq Require Import Strings.String.

Inductive rx : Type :=
| RSet (f : byte -> bool)
| RSeq (a b : rx)
| RAlt (a b : rx)   (* a is preferred *)
| RStar (a : rx).   (* greedy *)

Definition RPlus (a : rx) : rx := RSeq a (RStar a).
Definition REmpty : rx := RStar (RSet (fun _ => false)).
Fixpoint RLit (l : bytes) : rx :=
  match l with
  | [] => REmpty
  | [b] => RSet (beq b)
  | b :: l' => RSeq (RSet (beq b)) (RLit l')
  end.

Definition shorter (a b : bytes) : bool := (List.length a <? List.length b)%nat.

(** [rmatch r s k]: the first way (in order of preference) to match [r] at the
    start of [s] such that the continuation [k] accepts what is left. *)
Fixpoint rmatch {A} (r : rx) (s : bytes) (k : bytes -> option A) {struct r} : option A :=
  match r with
  | RSet f => match s with b :: s' => if f b then k s' else None | [] => None end
  | RSeq a b => rmatch a s (fun s' => rmatch b s' k)
  | RAlt a b => match rmatch a s k with Some x => Some x | None => rmatch b s k end
  | RStar a =>
      (fix star (n : nat) (s : bytes) : option A :=
         match n with
         | O => k s
         | S n' =>
             match rmatch a s (fun s' => if shorter s' s then star n' s' else None) with
             | Some x => Some x
             | None => k s
             end
         end) (List.length s) s
  end.

(** Regexp.FindReaderIndex relative to the start of [s]: [Some (i, j)] with the
    match at [s[i:j]]. *)
Fixpoint rfind (r : rx) (s : bytes) (i : Z) : option (Z * Z) :=
  match rmatch r s Some with
  | Some rest => Some (i, i + (zlen s - zlen rest))
  | None => match s with [] => None | _ :: s' => rfind r s' (i + 1) end
  end.

(** [\s] of Go's regexp: [\t\n\f\r ] *)
Definition re_space (b : byte) : bool := inb b [x09; x0a; x0c; x0d; x20].

(** pdf/parser.go:16: xref *)
Definition xref_regexp : rx := RLit (lit "xref").

(** pdf/parser.go:15: the gap, one or more of: a white space or NUL byte, or a
    percent sign followed by bytes other than CR and LF. *)
Definition re_gap : rx :=
  RPlus (RAlt (RSet (fun b => re_space b || beq b x00))
              (RSeq (RSet (beq "%"%byte))
                    (RStar (RSet (fun b => negb (beq b x0d || beq b x0a)))))).
(** pdf/parser.go:15: \d+ *)
Definition re_digits : rx := RPlus (RSet is_digit).
(** pdf/parser.go:15 *)
Definition start_obj_regexp : rx :=
  RSeq re_digits (RSeq re_gap (RSeq re_digits (RSeq re_gap (RLit (lit "obj"))))).

(** pdf/parser.go:14: startxref\s*(\d+)\s*%%EOF.  The capture group is
    delimited by running the part before it and the part of it separately:
    [rmatch_group] returns the text of the group and what follows the match. *)
Definition re_pre : rx := RSeq (RLit (lit "startxref")) (RStar (RSet re_space)).
Definition re_post : rx := RSeq (RStar (RSet re_space)) (RLit (lit "%%EOF")).
Definition match_startxref (s : bytes) : option (bytes * bytes) :=
  rmatch re_pre s (fun s1 =>
    rmatch re_digits s1 (fun s2 =>
      rmatch re_post s2 (fun s3 =>
        Some (firstn (List.length s1 - List.length s2) s1, s3)))).

(** Regexp.FindAllSubmatch(buffer, -1), pdf/parser.go:172: the captured digits
    of all successive non-overlapping matches.  [n] bounds the recursion by the
    number of bytes. *)
Fixpoint find_all_startxref (n : nat) (s : bytes) : list bytes :=
  match n with
  | O => []
  | S n' =>
      match match_startxref s with
      | Some (digits, s') => digits :: find_all_startxref n' s'
      | None => match s with [] => [] | _ :: s' => find_all_startxref n' s' end
      end
  end.
