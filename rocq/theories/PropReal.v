(** PropReal.v -- C07, continued: what the code makes of a literal with a
    fraction.  The full statement and its refutation are in PropRead.v; proofs
    are in RealP.v and RealReadP.v, [tenths] and [one_decimal] in SpecReal.v. *)
From Verif Require Import Base Msg Reader ReaderP Num Lexer SpecLex SpecObj SpecRead SpecReal RealReadP RealEx.
From Coq Require Import Strings.String QArith.
Local Open Scope Z_scope.

(** Every literal of less than 2^b (digits behind the point counted) is read
    as its integer part and d1/10 + d2/20 + d3/30 + ..., up to rounding: the
    error is at most 2^(b-52) for each digit behind the point. *)
Theorem C07_sum_partial : forall b file s g sign a da f df r, 0 <= b <= 48 -> wf file s -> gap g ->
  (sign = [] \/ sign = ["+"%byte] \/ sign = ["-"%byte]) -> dec_digits a da -> dec_digits f df ->
  dec_value da + zlen df <= 2 ^ b ->
  (forall c r', r = c :: r' -> forall d, ~ decdigit c d) ->
  rest s = g ++ sign ++ a ++ "."%byte :: f ++ r ->
  exists v s', read_number s = (v, s') /\ moved file s s' r [] /\
    float_near v (signed sign (inject_Z (dec_value da) + tenths 1 df)) (inject_Z (zlen df) * Qpower 2 (b - 52)).
Proof. exact read_fraction. Qed.
Print Assumptions C07_sum_partial.

(** Hence literals with one digit behind the point, or with zeros behind that
    digit, are read as the number they denote up to rounding. *)
Theorem C07_one_decimal_partial : forall b file s g sign a da f df q r, 0 <= b <= 48 -> wf file s -> gap g ->
  (sign = [] \/ sign = ["+"%byte] \/ sign = ["-"%byte]) -> dec_digits a da -> dec_digits f df ->
  real_text (sign ++ a ++ "."%byte :: f) q -> one_decimal df ->
  dec_value da + zlen df <= 2 ^ b ->
  (forall c r', r = c :: r' -> forall d, ~ decdigit c d) ->
  rest s = g ++ sign ++ a ++ "."%byte :: f ++ r ->
  exists v s', read_number s = (v, s') /\ moved file s s' r [] /\
    float_near v q (inject_Z (zlen df) * Qpower 2 (b - 52)).
Proof. exact read_one_decimal. Qed.
Print Assumptions C07_one_decimal_partial.

(** ... and, for numbers up to 2^20 with up to 1000 digits behind the point,
    no others. *)
Theorem C07_classified_partial : forall file s g sign a da f df q r, wf file s -> gap g ->
  (sign = [] \/ sign = ["+"%byte] \/ sign = ["-"%byte]) -> dec_digits a da -> dec_digits f df ->
  real_text (sign ++ a ++ "."%byte :: f) q -> dec_value da <= 2 ^ 20 -> zlen df <= 1000 ->
  (forall c r', r = c :: r' -> forall d, ~ decdigit c d) ->
  rest s = g ++ sign ++ a ++ "."%byte :: f ++ r ->
  exists v s', read_number s = (v, s') /\ (float_near v q (1 # 100000) <-> one_decimal df).
Proof. exact read_classified. Qed.
Print Assumptions C07_classified_partial.

Example C07_real_example :
  (dec_digits (lit "595") [5; 9; 5]%nat /\ dec_digits (lit "2") [2]%nat /\ real_text (lit "-595.2") (- (5952 # 10)) /\
   one_decimal [2]%nat /\ dec_value [5; 9; 5]%nat + zlen [2]%nat <= 2 ^ 10) /\
  (dec_digits (lit "0") [0]%nat /\ dec_digits (lit "75") [7; 5]%nat /\ real_text (lit "0.75") (75 # 100) /\
   ~ one_decimal [7; 5]%nat) /\
  (forall c r', lit " 0 Td" = c :: r' -> forall d, ~ decdigit c d) /\
  exists file s, wf file s /\ rest s = lit "-595.2 0 Td".
Proof. exact C07_real_ex. Qed.
