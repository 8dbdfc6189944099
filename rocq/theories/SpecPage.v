(** SpecPage.v -- any byte string as a sequence of objects, and the lines of
    contents.txt (C48). *)
From Verif Require Import Base Msg Reader ReaderP Num Lexer Obj ReadObj Font Output Page SpecObj SpecText.
From Coq Require Import Strings.String.

(** In front of [t], ReadObject gives [o] and [e] and leaves [r], wherever [t] is. *)
Definition next_object (t : bytes) (o : obj) (e : oerr) (r : bytes) : Prop :=
  forall file s, wf file s -> rest s = t -> exists s', ReadObject file no_decryptor s = Ok ((o, e), s') /\ wf file s' /\ rest s' = r.
(** The objects of [t] one after another; a stray closing delimiter counts as null. *)
Inductive tokens : bytes -> list obj -> Prop :=
| tk_end : forall t o, next_object t o EReadError [] -> tokens t []
| tk_object : forall t o r l, next_object t o ENone r -> tokens r l -> tokens t (o :: l)
| tk_stray : forall t o e r l, next_object t o e r -> e <> ENone -> e <> EReadError -> tokens r l -> tokens t (OKw (lit "null") :: l).

(** Each line goes to contents.txt, with an end of line. *)
Definition lines (ls : list bytes) : list ev := flat_map (fun t => [EWrite FText t; EWrite FText [x0a]]) ls.

(** The text operators TJ of a sequence of commands have no strings at the odd
    positions of their arrays: strings and numbers alternate (C49). *)
Definition alternating (c : bytes * list obj) : Prop :=
  fst c = lit "TJ" -> forall i o, nth_error (array_of (from_end (snd c) 0)) (2 * i + 1) = Some o -> string_of (Some o) = [].

(** No hex string of a character map is the largest number (C45). *)
Definition moderate (cmap : bytes) : Prop :=
  forall s v s', wf cmap s -> read_hex_string no_decryptor s = Ok (v, s') -> code v <> 2 ^ 63 - 1.

(** The fonts of a page by name; all codes have at least one byte. *)
Definition view (f : font) : (Z -> option bytes) * Z := (fun c => mget Z.eqb c (f_map f), f_width f).
Definition named (fm : fontmap) (n : bytes) : option ((Z -> option bytes) * Z) := option_map view (mget bseq n fm).
Definition sound_fonts (fm : fontmap) : Prop := forall n f, mget bseq n fm = Some f -> 1 <= f_width f.
