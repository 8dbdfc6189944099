(** PropTrunc.v -- C125: encoded data of which the end is missing.
    Only statements; the proofs are in TruncP.v and TruncTiffP.v, the witness in TruncEx.v. *)
From Verif Require Import Base Msg Lexer Bits Filters SpecTrunc TruncP TruncTiffP TruncEx.
From Coq Require Import Strings.String.
Local Open Scope Z_scope.

(** ** C125.  [a] is there, [b] is missing; neither need be well-formed.  A pair of
    hexadecimal digits cut in two changes the last byte, ... *)
Theorem C125_hex : forall a b, agrees_but 1 1 b (ascii_hex_decode a) (ascii_hex_decode (a ++ b)).
Proof. exact hex_truncated. Qed.
Print Assumptions C125_hex.

(** ... a group of five digits the last three; ... *)
Theorem C125_ascii85 : forall a b, agrees_but 3 4 b (ascii85_decode a) (ascii85_decode (a ++ b)).
Proof. exact a85_truncated. Qed.
Print Assumptions C125_ascii85.

(** ... runs lose nothing: what is missing begins with bytes of [b], to a run cut
    in two, or with the first of them repeated, or the data had ended before; ... *)
Theorem C125_run_length : forall a b, exists s, run_length_decode (a ++ b) = run_length_decode a ++ s /\
  (s = [] \/ (exists j, s = firstn j b ++ run_length_decode (skipn j b)) \/
   exists c b' k, b = c :: b' /\ (2 <= k <= 128)%nat /\ s = repeat c k ++ run_length_decode b').
Proof. exact rl_truncated. Qed.
Print Assumptions C125_run_length.

(** ... PNG rows neither; ... *)
Theorem C125_predictors : forall fuel predictor bpc colors columns a b, predictor <> 2 -> exists x s,
  reverse_predictor fuel predictor bpc colors columns a = Ok x /\
  reverse_predictor fuel predictor bpc colors columns (a ++ b) = Ok (x ++ s) /\ zlen s <= zlen b.
Proof. exact predictor_truncated. Qed.
Print Assumptions C125_predictors.

(** ... with the TIFF predictor a sample cut in two changes the last two bytes.
    The bounds are those within which the products do not overflow (C32). *)
Theorem C125_tiff : forall bpc colors columns a b, 1 <= bpc <= 16 -> 1 <= colors -> 1 <= columns -> bpc * colors * columns < 2 ^ 62 -> zlen (a ++ b) < 2 ^ 58 ->
  exists f0 x y, agrees_but 2 1 b x y /\ zlen x = zlen a /\ zlen y = zlen (a ++ b) /\ forall fuel, (f0 <= fuel)%nat ->
    reverse_predictor fuel 2 bpc colors columns a = Ok x /\ reverse_predictor fuel 2 bpc colors columns (a ++ b) = Ok y.
Proof. exact tiff_truncated. Qed.
Print Assumptions C125_tiff.

Example C125_example : ascii_hex_decode (lit "4a 4") = lit "J@" /\ ascii_hex_decode (lit "4a 4" ++ lit "b4c>") = lit "JKL" /\
  ascii85_decode (lit "9jqo^9jq") = lit "Man Ma" /\ ascii85_decode (lit "9jqo^9jq" ++ lit "o^~>") = lit "Man Man " /\
  run_length_decode (xff :: lit "x" ++ x03 :: lit "ab") = lit "xxab" /\ run_length_decode ((xff :: lit "x" ++ x03 :: lit "ab") ++ lit "cd") = lit "xxabcd" /\
  reverse_predictor 0 15 8 1 3 [x02; x61; x62; x63; x02; x01] = Ok (lit "abcb") /\
  reverse_predictor 0 15 8 1 3 ([x02; x61; x62; x63; x02; x01] ++ [x01; x01; x00]) = Ok (lit "abcbcd") /\
  reverse_predictor 30 2 12 1 4 [x00; x10; x01; x00] = Ok [x00; x10; x02; x00] /\
  reverse_predictor 30 2 12 1 4 ([x00; x10; x01; x00] ++ [x1f; xff]) = Ok [x00; x10; x02; x00; x30; x02] /\
  agrees_but 3 4 (lit "o^~>") (lit "Man Ma") (lit "Man Man ").
Proof. exact C125_ex. Qed.
