(** PropLines.v -- literal strings with line ends and large octal codes (C103). *)
From Verif Require Import Base Msg Reader ReaderP Num Lexer Obj ReadObj SpecLex SpecRead SpecLines LinesP LinesEx.
From Coq Require Import Strings.String.

(** ** C103: a literal string is read as the standard has it.
    Full statement: C103_strings_partial with [dec w = Ok u] in place of
    [near v w] and [dec v = Ok u].  This is false: line ends in the string are
    kept as they are, and an octal code above 255 is taken for two characters. *)
Theorem C103_lines_refuted : exists file dec s t w r, wf file s /\ total dec /\ std_body t w /\ ~ In "\"%byte t /\ rest s = "("%byte :: t ++ ")"%byte :: r /\
  forall u s', dec w = Ok u -> ReadObject file dec s <> Ok ((OStr u, ENone), s').
Proof. exact lines_refuted. Qed.
Print Assumptions C103_lines_refuted.
Theorem C103_octal_refuted : exists file dec s t w r, wf file s /\ total dec /\ std_body t w /\ ~ In x0d t /\ rest s = "("%byte :: t ++ ")"%byte :: r /\
  forall u s', dec w = Ok u -> ReadObject file dec s <> Ok ((OStr u, ENone), s').
Proof. exact octal_refuted. Qed.
Print Assumptions C103_octal_refuted.
(** These are the only differences; in texts without either there is none. *)
Theorem C103_strings_partial : forall file dec s g t w r, wf file s -> total dec -> gap g -> std_body t w -> rest s = g ++ "("%byte :: t ++ ")"%byte :: r ->
  exists s' v u ms, near v w /\ dec v = Ok u /\ ReadObject file dec s = Ok ((OStr u, ENone), s') /\ moved file s s' r ms /\ (forall v' k, str_body t v' k -> v = v').
Proof. exact std_read. Qed.
Print Assumptions C103_strings_partial.
Example C103_example : let file := lit " (" ++ two_lines ++ lit ")]" in wf file (open_rd file) /\ total (fun v => Ok v) /\ gap (lit " ") /\
  std_body two_lines (lit "a" ++ x0a :: lit "b" ++ x0a :: lit "c") /\ rest (open_rd file) = lit " " ++ "("%byte :: two_lines ++ ")"%byte :: lit "]" /\
  near two_lines (lit "a" ++ x0a :: lit "b" ++ x0a :: lit "c") /\ near (lit "(1x") (lit "Ax").
Proof. exact C103_ex. Qed.
