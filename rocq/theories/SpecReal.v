(** SpecReal.v -- what the code adds up for the digits behind a point
    (pdf/parser.go:881-895): the i-th digit counts d/(10*i), not d/10^i. *)
From Verif Require Import Base SpecLex SpecRead.
From Coq Require Import QArith.
Local Open Scope Z_scope.

(** d_i/(10*i) + d_(i+1)/(10*(i+1)) + ... *)
Fixpoint tenths (i : Z) (ds : list nat) : Q :=
  match ds with
  | [] => 0
  | d :: r => (Z.of_nat d # Z.to_pos (10 * i)) + tenths (i + 1) r
  end.

(** The value with a sign in front. *)
Definition signed (sign : bytes) (q : Q) : Q := if bseq sign ["-"%byte] then (- q)%Q else q.

(** Every digit but the first is zero. *)
Definition one_decimal (ds : list nat) : Prop := forall d, In d (tl ds) -> d = 0%nat.
