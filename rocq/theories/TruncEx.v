(** TruncEx.v -- witnesses for C125. *)
From Verif Require Import Base BaseP Lexer Bits Filters SpecTrunc.
From Coq Require Import Strings.String.
Local Open Scope Z_scope.

(** cut inside of a pair, of a group, of a run and of a row *)
Lemma C125_ex : ascii_hex_decode (lit "4a 4") = lit "J@" /\ ascii_hex_decode (lit "4a 4" ++ lit "b4c>") = lit "JKL" /\
  ascii85_decode (lit "9jqo^9jq") = lit "Man Ma" /\ ascii85_decode (lit "9jqo^9jq" ++ lit "o^~>") = lit "Man Man " /\
  run_length_decode (xff :: lit "x" ++ x03 :: lit "ab") = lit "xxab" /\ run_length_decode ((xff :: lit "x" ++ x03 :: lit "ab") ++ lit "cd") = lit "xxabcd" /\
  reverse_predictor 0 15 8 1 3 [x02; x61; x62; x63; x02; x01] = Ok (lit "abcb") /\
  reverse_predictor 0 15 8 1 3 ([x02; x61; x62; x63; x02; x01] ++ [x01; x01; x00]) = Ok (lit "abcbcd") /\
  reverse_predictor 30 2 12 1 4 [x00; x10; x01; x00] = Ok [x00; x10; x02; x00] /\
  reverse_predictor 30 2 12 1 4 ([x00; x10; x01; x00] ++ [x1f; xff]) = Ok [x00; x10; x02; x00; x30; x02] /\
  agrees_but 3 4 (lit "o^~>") (lit "Man Ma") (lit "Man Man ").
Proof.
  repeat (split; [vm_compute; reflexivity|]).
  exists (lit "Man "), (lit "Ma"), (lit "Man "). split; [reflexivity|]. split; [reflexivity|]. split; vm_compute; discriminate.
Qed.
