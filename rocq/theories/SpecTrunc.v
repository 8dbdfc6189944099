(** SpecTrunc.v -- encoded data of which the end is missing, written without
    reference to the decoders (C125). *)
From Verif Require Import Base.

(** [x] is what is made of the data that is there, [y] what is made of all of it;
    [lost] is the data missing.  They agree but for at most the last [k] bytes of
    [x], which a group cut in two may change, and what [y] has beyond [x] is at
    most [m] bytes for each byte missing. *)
Definition agrees_but (k m : Z) (lost x y : bytes) : Prop := exists u s s',
  x = u ++ s /\ y = u ++ s' /\ zlen s <= k /\ zlen s' <= zlen s + m * zlen lost.
