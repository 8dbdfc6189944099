(** SpecScript.v -- the characters of a text string (ISO 32000-1, 7.9.2.2),
    written without reference to the extraction (C124). *)
From Verif Require Import Base SpecForm.
From Coq Require Import Strings.String.

(** A character that has the same code in PDFDocEncoding and in ASCII. *)
Definition ascii_char (b : byte) : Prop := bv b = 9 \/ bv b = 10 \/ bv b = 13 \/ 32 <= bv b < 127.
(** A text string is UTF-16BE behind a byte order mark or PDFDocEncoding, of
    which only the common part with ASCII is described. *)
Inductive text_string : bytes -> list Z -> Prop :=
| ts_utf16 : forall r us, utf16 r us -> text_string (xfe :: xff :: r) us
| ts_ascii : forall s, (forall b, In b s -> ascii_char b) -> text_string s (map bv s).
