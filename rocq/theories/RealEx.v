(** RealEx.v -- literals meeting the hypotheses of C07. *)
From Verif Require Import Base Msg Reader ReaderP Num Lexer SpecLex SpecLexP SpecObj SpecRead SpecReal.
From Coq Require Import Strings.String QArith.
Local Open Scope Z_scope.

Ltac digits := repeat (constructor; [apply decdigit_spec; split; reflexivity|]); constructor.

(** -595.2 is read right, 0.75 is not *)
Lemma C07_real_ex :
  (dec_digits (lit "595") [5; 9; 5]%nat /\ dec_digits (lit "2") [2]%nat /\ real_text (lit "-595.2") (- (5952 # 10)) /\
   one_decimal [2]%nat /\ dec_value [5; 9; 5]%nat + zlen [2]%nat <= 2 ^ 10) /\
  (dec_digits (lit "0") [0]%nat /\ dec_digits (lit "75") [7; 5]%nat /\ real_text (lit "0.75") (75 # 100) /\
   ~ one_decimal [7; 5]%nat) /\
  (forall c r', lit " 0 Td" = c :: r' -> forall d, ~ decdigit c d) /\
  exists file s, wf file s /\ rest s = lit "-595.2 0 Td".
Proof.
  split; [|split; [|split]].
  - split; [digits|]. split; [digits|]. split.
    + apply (rt_minus (lit "595.2") (5952 # 10)).
      * apply (rt_plain (lit "595") [5; 9; 5]%nat (lit "2") [2]%nat); [digits|digits|discriminate].
      * intros x r E. injection E as <- _. intros [H|[H|[]]]; discriminate.
    + split; [intros d []|]. vm_compute. discriminate.
  - split; [digits|]. split; [digits|]. split.
    + apply (rt_plain (lit "0") [0]%nat (lit "75") [7; 5]%nat); [digits|digits|discriminate].
    + intros F. specialize (F 5%nat (or_introl eq_refl)). discriminate.
  - intros c r' E d H. injection E as <- _. apply decdigit_spec in H. destruct H. discriminate.
  - exists (lit "-595.2 0 Td"), (open_rd (lit "-595.2 0 Td")). split; [apply open_wf|reflexivity].
Qed.
