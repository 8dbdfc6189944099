(** PropTolerant.v -- C86: how texts of every kind are read. *)
From Verif Require Import Base Msg Reader ReaderP Num Obj ReadObj SpecLex SpecObj SpecRead SpecTolerant TolerantP TolerantEx.
From Coq Require Import Strings.String.

(** ** C86.  One grammar (SpecTolerant.v) covers all texts.  With some reading
    [value] of the number tokens that is exact on integers, it agrees with the
    canonical syntax, assigns to each text exactly one item, list of messages
    and remainder, and ReadObject yields precisely these. *)
Theorem C86_every_text : exists value,
  (forall t z, int_text t z -> - 2 ^ 53 <= z <= 2 ^ 53 -> num_int (value t) = z /\ float_is (value t) z) /\
  (forall g t o r, gap g -> obj_text t o -> may_follow o r -> scan value (g ++ t ++ r) (IObj o) [] r) /\
  (forall t, exists x ms r, scan value t x ms r) /\
  (forall t x ms r x' ms' r', scan value t x ms r -> scan value t x' ms' r' -> x = x' /\ ms = ms' /\ r = r') /\
  (forall file dec f s x ms r, wf file s -> (forall v, dec v = Ok (f v)) -> scan value (rest s) x ms r ->
     exists s', ReadObject file dec s = Ok ((map_strings f (item_value x), item_error x), s') /\ moved file s s' r ms).
Proof. exact every_text. Qed.
Print Assumptions C86_every_text.

(** an octal code above 255, a string as a key, an incomplete code in a name,
    a stray '>' in an array and a key without a value *)
Example C86_example : forall value, scan value (lit "<</A(\777)(k)/B#4x[a > ]/C>>z")
  (IObj (ODict [(lit "A", OStr (lit "?7")); (lit "B@x", OArr [OKw (lit "a"); OKw (lit "null")])]))
  [InvalidOctal; UnnecessaryEscapeString; InvalidDictionaryKeyType; InvalidNameEscapeChar; UnnecessaryEscapeName;
   MissingDictionaryValue] (lit "z").
Proof. exact sloppy. Qed.
