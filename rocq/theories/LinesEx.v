(** LinesEx.v -- witnesses for PropLines.v. *)
From Verif Require Import Base BaseP Msg Reader ReaderP Num Lexer Obj ReadObj SpecLex SpecLexP SpecRead ReadP SpecLines LinesP.
From Coq Require Import Strings.String.

Ltac pl := apply sd_plain; [discriminate | discriminate | discriminate | discriminate |].
Definition two_lines : bytes := lit "a" ++ x0d :: x0a :: lit "b" ++ x0d :: lit "c".
Lemma two_lines_std : std_body two_lines (lit "a" ++ x0a :: lit "b" ++ x0a :: lit "c").
Proof. unfold two_lines. cbn. pl. apply sd_line_crlf. pl. apply sd_line_cr; [intros (r & Q); discriminate |]. pl. constructor. Qed.
Lemma lines_refuted : exists file dec s t w r, wf file s /\ total dec /\ std_body t w /\ ~ In "\"%byte t /\ rest s = "("%byte :: t ++ ")"%byte :: r /\
  forall u s', dec w = Ok u -> ReadObject file dec s <> Ok ((OStr u, ENone), s').
Proof.
  exists (lit "(" ++ two_lines ++ lit ")"), (fun v => Ok v), (open_rd (lit "(" ++ two_lines ++ lit ")")), two_lines, (lit "a" ++ x0a :: lit "b" ++ x0a :: lit "c"), [].
  split; [apply open_wf |]. split; [intros v; exists v; reflexivity |]. split; [apply two_lines_std |]. split; [cbn; intuition discriminate |]. split; [reflexivity |].
  intros u s' Q. injection Q as <-. vm_compute. discriminate.
Qed.
Definition big_code : bytes := lit "\501x".
Lemma big_code_std : std_body big_code (lit "Ax").
Proof. unfold big_code. cbn. eapply (sd_octal3 _ _ _ 5 0 1); try reflexivity. pl. constructor. Qed.
Lemma octal_refuted : exists file dec s t w r, wf file s /\ total dec /\ std_body t w /\ ~ In x0d t /\ rest s = "("%byte :: t ++ ")"%byte :: r /\
  forall u s', dec w = Ok u -> ReadObject file dec s <> Ok ((OStr u, ENone), s').
Proof.
  exists (lit "(" ++ big_code ++ lit ")"), (fun v => Ok v), (open_rd (lit "(" ++ big_code ++ lit ")")), big_code, (lit "Ax"), [].
  split; [apply open_wf |]. split; [intros v; exists v; reflexivity |]. split; [apply big_code_std |]. split; [cbn; intuition discriminate |]. split; [reflexivity |].
  intros u s' Q. injection Q as <-. vm_compute. discriminate.
Qed.
Lemma C103_ex : let file := lit " (" ++ two_lines ++ lit ")]" in wf file (open_rd file) /\ total (fun v => Ok v) /\ gap (lit " ") /\
  std_body two_lines (lit "a" ++ x0a :: lit "b" ++ x0a :: lit "c") /\ rest (open_rd file) = lit " " ++ "("%byte :: two_lines ++ ")"%byte :: lit "]" /\
  near two_lines (lit "a" ++ x0a :: lit "b" ++ x0a :: lit "c") /\ near (lit "(1x") (lit "Ax").
Proof.
  split; [apply open_wf |]. split; [intros v; exists v; reflexivity |]. split; [apply gap_ws; [right; right; right; right; right; left; reflexivity | constructor] |].
  split; [apply two_lines_std |]. split; [reflexivity |]. split; [repeat constructor |]. apply (nr_octal _ _ 5 0 1); try reflexivity; try lia. repeat constructor.
Qed.
