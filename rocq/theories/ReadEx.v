(** ReadEx.v -- witnesses: concrete cases meeting the hypotheses of the theorems
    of PropRead.v, and counterexamples. *)
From Verif Require Import Base BaseP Msg Reader ReaderP Num Lexer Obj ReadObj Plain LexerP ReadObjP PObjP
  SpecLex SpecLexP SpecObj SpecNumP SpecObjP SpecRead ReadP.
From Coq Require Import Strings.String QArith.
Local Open Scope Z_scope.

Lemma C01_ex :
  let file := lit "1 0 %x" ++ x0a :: lit "[<</A[(b" in
  let s := seek file 3 (open_rd file) in
  wf file s /\ total no_decryptor /\ rest s = lit " %x" ++ x0a :: lit "[<</A[(b".
Proof.
  cbv zeta. split; [apply seek_wf, open_wf|]. split; [exact no_total|reflexivity].
Qed.

Ltac in_list := vm_compute; tauto.
Ltac ws := unfold ws_byte; in_list.

Lemma C02_ex :
  gap (lit " %c<<" ++ x0d :: x0a :: lit "%" ++ x0a :: x00 :: x0c :: []) /\
  rest (open_rd (lit "<</A 1>>")) = lit "<</A 1>>".
Proof.
  split; [|reflexivity]. apply gap_ws; [ws|].
  apply (gap_comment (lit "c<<") x0d); [|right; reflexivity|].
  { intros b Hb [->| ->]; simpl in Hb; intuition discriminate. }
  apply gap_ws; [ws|]. apply (gap_comment [] x0a); [intros b []|left; reflexivity|].
  apply gap_ws; [ws|]. apply gap_ws; [ws|]. apply gap_nil.
Qed.

(** decidable classifications for the examples *)
Ltac oct := unfold octdigit, digit; reflexivity.
Ltac plain := apply sb_plain; [discriminate|discriminate|discriminate|discriminate|].
Ltac needed := apply cc_needed; unfold needless; intros [H1 H2]; first [ vm_compute in H1; destruct H1; congruence | apply H2; in_list ].
Ltac notneeded := apply cc_needless; split; [vm_compute; split; discriminate | let H := fresh in intros H; vm_compute in H; intuition discriminate].

Lemma C03_ex : str_body (lit "a(b\)c)\n\101\0" ++ "\"%byte :: x0d :: x0a :: lit "\q")
  (lit "a(b)c)" ++ x0a :: lit "A" ++ x00 :: lit "q") 1.
Proof.
  change (lit "a(b\)c)\n\101\0" ++ "\"%byte :: x0d :: x0a :: lit "\q")
    with ("a"%byte :: "("%byte :: lit "b\)c" ++ ")"%byte :: lit "\n\101\0" ++ "\"%byte :: x0d :: x0a :: lit "\q").
  change (lit "a(b)c)" ++ x0a :: lit "A" ++ x00 :: lit "q")
    with ("a"%byte :: "("%byte :: lit "b)c" ++ ")"%byte :: x0a :: "A"%byte :: x00 :: lit "q").
  plain. apply (sb_nested (lit "b\)c") (lit "b)c") 0 _ _ 1).
  - plain. apply sb_letter; [constructor|]. plain. constructor.
  - apply sb_letter; [constructor|].
    apply (sb_octal3 "1" "0" "1" 1 0 1 "A" _ _ 1 0); try oct; [notneeded|].
    apply (sb_octal1 "0" 0 x00 _ _ 0 0); try oct; [|needed|].
    + intros (b & r & v & E & H). injection E as <- <-. apply octdigit_spec in H. destruct H; discriminate.
    + apply sb_crlf. apply sb_unknown; [| | |constructor].
      * intros b H; inversion H.
      * intros d H. apply octdigit_spec in H. destruct H; discriminate.
      * intros [H|H]; discriminate.
Qed.

Lemma C04_ex : hex_digits (lit "4 1z" ++ x0a :: lit "fF9") [4; 1; 15; 15; 9]%nat 1 /\
  hex_pairs [4; 1; 15; 15; 9]%nat [x41; xff; x90].
Proof.
  split.
  - apply (hd_digit "4" 4); [left; reflexivity|]. apply hd_ws; [ws|]. apply (hd_digit "1" 1); [left; reflexivity|].
    apply hd_skip; try discriminate.
    { intros v H. apply hexdigit_spec in H. destruct H; discriminate. }
    { intros H. apply is_ws_spec in H. discriminate. }
    apply hd_ws; [ws|]. apply (hd_digit "f" 15); [left; reflexivity|]. apply (hd_digit "F" 15); [right; reflexivity|].
    apply (hd_digit "9" 9); [left; reflexivity|]. apply hd_nil.
  - apply hp_pair; [reflexivity|]. apply hp_pair; [reflexivity|]. apply hp_odd. reflexivity.
Qed.

Ltac regular := let H := fresh in split; intros H; [apply is_ws_spec in H|apply is_delim_spec in H]; discriminate H.

Lemma C05_ex : name_body (lit "A#42#20;") (lit "AB ;") 1 /\ ends_token (lit "/next").
Proof.
  split.
  - apply nb_char; [regular|discriminate|].
    apply (nb_escape "4" "2" 4 2 "B" _ _ 1 0); try (left; reflexivity); [reflexivity|notneeded|].
    apply (nb_escape "2" "0" 2 0 " " _ _ 0 0); try (left; reflexivity); [reflexivity|needed|].
    apply nb_char; [regular|discriminate|]. apply nb_nil.
  - right. exists "/"%byte, (lit "next"). split; [reflexivity|]. right. unfold delim_byte. in_list.
Qed.

(** digits of a literal *)
Fixpoint digit_values (t : bytes) : list nat :=
  match t with [] => [] | b :: r => Z.to_nat (bv b - 48) :: digit_values r end.
Lemma digits_ok : forall t, forallb is_digit t = true -> dec_digits t (digit_values t).
Proof.
  induction t as [|b t IH]; intros H; simpl; constructor; simpl in H; apply andb_true_iff in H; destruct H as [H1 H2]; auto.
  apply decdigit_spec. split; auto. unfold is_digit in H1. apply andb_true_iff in H1. destruct H1 as [H1 _].
  apply Z.leb_le in H1. lia.
Qed.
Lemma nat_ok : forall t n, forallb is_digit t = true -> t <> [] -> dec_value (digit_values t) = n -> nat_text t n.
Proof.
  intros t n H1 H2 H3. exists (digit_values t). split; [apply digits_ok; auto|]. split; auto.
  destruct t; [congruence|discriminate].
Qed.
Ltac nat_lit := apply nat_ok; [reflexivity|discriminate|reflexivity].

Lemma no_ref_ok : forall l, no_ref l -> forall n r, ~ ref_tail l n r.
Proof. intros l H. apply ref_tail_spec. exact H. Qed.

Lemma C06_ex : int_text (lit "-0009007199254740992") (- 2 ^ 53) /\
  ends_number (lit " 5 obj") /\ (forall n r, ~ ref_tail (lit " 5 obj") n r).
Proof.
  split; [apply it_minus; nat_lit|]. split.
  - right. exists x20, (lit "5 obj"). split; [reflexivity|]. simpl. intuition discriminate.
  - apply no_ref_ok. right. vm_compute. discriminate.
Qed.

Lemma real_refuted : exists file t q v s', file = t /\ real_text t q /\ (q == 5 # 4)%Q /\
  read_number (open_rd file) = (v, s') /\ ~ float_near v q (1 # 6).
Proof.
  exists (lit "1.25"), (lit "1.25"), (125 # 100)%Q.
  destruct (read_number (open_rd (lit "1.25"))) as [v s'] eqn:E. exists v, s'.
  split; [reflexivity|]. split.
  { apply (rt_plain (lit "1") [1]%nat (lit "25") [2; 5]%nat); [| |discriminate].
    - apply digits_ok. reflexivity.
    - apply digits_ok. reflexivity. }
  split; [reflexivity|]. split; [reflexivity|].
  vm_compute in E. injection E as <- _. intros (w & Hw & H1 & H2).
  vm_compute in Hw. injection Hw as <-. vm_compute in H1. apply H1. reflexivity.
Qed.

Lemma C07_ex : nat_text (lit "612") 612 /\ (forall b r', lit " Tf" = b :: r' -> forall d, ~ decdigit b d).
Proof.
  split; [nat_lit|]. intros b r' E d H. injection E as <- _. apply decdigit_spec in H. destruct H; discriminate.
Qed.

Ltac delim_end := right; do 2 eexists; split; [reflexivity|]; first [left; unfold ws_byte; in_list | right; unfold delim_byte; in_list].

Lemma name1 : forall b, regular_byte b -> b <> "#"%byte -> name_body [b] [b] 0.
Proof. intros b H1 H2. apply nb_char; auto. apply nb_nil. Qed.
Lemma gap1 : gap [x20].
Proof. apply gap_ws; [ws|apply gap_nil]. Qed.
Lemma str1 : forall b, b <> "\"%byte -> b <> "("%byte -> b <> ")"%byte -> b <> x0d -> obj_text ["("%byte; b; ")"%byte] (OStr [b]).
Proof. intros b H1 H2 H3 H4. apply (ot_str [b] [b]). apply sb_plain; auto. constructor. Qed.
Ltac int_obj := apply ot_int; [apply it_plain; nat_lit|vm_compute; split; discriminate|intros; discriminate].
(** no gap before the object *)
Lemma cons0 : forall t o r l, obj_text t o -> items r l -> self_delimited o \/ ends_token r -> items (t ++ r) (o :: l).
Proof. intros. apply (it_cons [] t o r l); auto. apply gap_nil. Qed.
Lemma cons1 : forall t o r l, obj_text t o -> items r l -> self_delimited o \/ ends_token r -> items (x20 :: t ++ r) (o :: l).
Proof. intros. apply (it_cons [x20] t o r l); auto. apply gap1. Qed.
Lemma nil0 : items [] [].
Proof. apply it_nil. apply gap_nil. Qed.
Lemma end0 : ends_token [].
Proof. left. reflexivity. Qed.

Lemma C08_ex :
  obj_text (lit "<</K[1 2 0 R(s)]/N<41>>>")
    (ODict [(lit "K", OArr [ONum (num_of_Z 1); ORef 2 0; OStr (lit "s")]); (lit "N", OStr (lit "A"))]) /\
  writable (ODict [(lit "K", OArr [ONum (num_of_Z 1); ORef 2 0; OStr (lit "s")]); (lit "N", OStr (lit "A"))]).
Proof.
  assert (ND : NoDup [lit "K"; lit "N"]).
  { constructor; [|constructor; [intros []|constructor]]. intros [H|[]]. discriminate. }
  split.
  - apply (ot_dict (lit "/K[1 2 0 R(s)]/N<41>")); [|exact ND]. cbn [flatten].
    apply (cons0 (lit "/K")); [apply (ot_name (lit "K")), name1; [regular|discriminate]| |right; delim_end].
    apply (cons0 (lit "[1 2 0 R(s)]")); [|  |left; exact I].
    + apply (ot_arr (lit "1 2 0 R(s)")).
      apply (cons0 (lit "1")); [int_obj| |right; delim_end].
      apply (cons1 (lit "2 0 R")); [| |right; delim_end].
      * apply (ot_ref (lit "2") 2 [x20] (lit "0") 0 [x20]); try discriminate; try nat_lit; try apply gap1; reflexivity.
      * apply (cons0 (lit "(s)")); [apply str1; discriminate|apply nil0|left; exact I].
    + apply (cons0 (lit "/N")); [apply (ot_name (lit "N")), name1; [regular|discriminate]| |right; delim_end].
      apply (cons0 (lit "<41>")); [|apply nil0|left; exact I].
      apply (ot_hex (lit "41") [4; 1]%nat (lit "A")).
      * apply (hd_digit "4" 4); [left; reflexivity|]. apply (hd_digit "1" 1); [left; reflexivity|]. apply hd_nil.
      * apply hp_pair; [reflexivity|apply hp_nil].
  - simpl. split; [exact ND|]. split; [|tauto]. split; [exists 1; split; [lia|reflexivity]|].
    split; [lia|tauto].
Qed.

Lemma C09_ex :
  items (lit "/A 1/B 2/A 3") (flatten [(lit "A", ONum (num_of_Z 1)); (lit "B", ONum (num_of_Z 2)); (lit "A", ONum (num_of_Z 3))]) /\
  given_last (lit "A") (ONum (num_of_Z 3)) [(lit "A", ONum (num_of_Z 1)); (lit "B", ONum (num_of_Z 2)); (lit "A", ONum (num_of_Z 3))].
Proof.
  split.
  - cbn [flatten].
    apply (cons0 (lit "/A")); [apply (ot_name (lit "A")), name1; [regular|discriminate]| |right; delim_end].
    apply (cons1 (lit "1")); [int_obj| |right; delim_end].
    apply (cons0 (lit "/B")); [apply (ot_name (lit "B")), name1; [regular|discriminate]| |right; delim_end].
    apply (cons1 (lit "2")); [int_obj| |right; delim_end].
    apply (cons0 (lit "/A")); [apply (ot_name (lit "A")), name1; [regular|discriminate]| |right; delim_end].
    apply (cons1 (lit "3")); [int_obj|apply nil0|right; apply end0].
  - exists [(lit "A", ONum (num_of_Z 1)); (lit "B", ONum (num_of_Z 2))], []. split; [reflexivity|intros []].
Qed.

Lemma C10_ex : cut_text (lit "[1<</A(x)/B[2 ")
  (OArr [ONum (num_of_Z 1); ODict [(lit "A", OStr (lit "x")); (lit "B", OArr [ONum (num_of_Z 2)])]])
  [CutArray; CutDict; CutArray].
Proof.
  apply (ct_arr_in (lit "1") [ONum (num_of_Z 1)] (lit "<</A(x)/B[2 ") _ [CutArray; CutDict]).
  { apply (cons0 (lit "1")); [int_obj|apply nil0|right; apply end0]. }
  apply (ct_dict_in (lit "/A(x)/B") [(lit "A", OStr (lit "x"))] (lit "B") (lit "[2 ") _ [CutArray]).
  - apply (cons0 (lit "/A")); [apply (ot_name (lit "A")), name1; [regular|discriminate]| |right; delim_end].
    apply (cons0 (lit "(x)")); [apply str1; discriminate| |left; exact I].
    apply (cons0 (lit "/B")); [apply (ot_name (lit "B")), name1; [regular|discriminate]|apply nil0|right; apply end0].
  - constructor; [|constructor; [intros []|constructor]]. intros [H|[]]. discriminate.
  - apply (ct_arr (lit "2 ")). apply (cons0 (lit "2") _ (lit " ")); [int_obj|apply it_nil; apply gap1|right; delim_end].
Qed.

Lemma C11_ex :
  open_end (lit "\10") [x08] [UnclosedStringOctal; UnclosedString] /\
  (octdigit "7" 7 /\ code_count (lit "\()") "?" 1 /\ bv "?"%byte = Z.of_nat (8 * 7 + 7)) /\
  bad_escape (lit "#4x ") /\
  items (lit "/A 1(k)2") (flatten [(lit "A", ONum (num_of_Z 1))] ++ OStr (lit "k") :: [ONum (num_of_Z 2)]).
Proof.
  split; [|split; [|split]].
  - apply (oe_octal2 "1" "0" 1 0 x08 0); try oct. needed.
  - split; [oct|]. split; [notneeded|reflexivity].
  - apply (be_second "4" 4 "x" (lit " ")); [left; reflexivity|].
    intros v H. apply hexdigit_spec in H. destruct H; discriminate.
  - apply (cons0 (lit "/A")); [apply (ot_name (lit "A")), name1; [regular|discriminate]| |right; delim_end].
    apply (cons1 (lit "1")); [int_obj| |right; delim_end].
    apply (cons0 (lit "(k)")); [apply str1; discriminate| |left; exact I].
    apply (cons0 (lit "2")); [int_obj|apply nil0|right; apply end0].
Qed.

Lemma C12_ex : number_text (lit "12") /\ ref_tail (lit " 3%c" ++ x0a :: lit "R]") 3 (lit "]") /\
  (forall n r, ~ ref_tail (lit " 3 Rx") n r).
Proof.
  split; [|split].
  - apply (int_text_number _ 12). apply it_plain. nat_lit.
  - apply (rt_intro [x20] (lit "3") 3 (lit "%c" ++ [x0a]) (lit "]")); [apply gap1|nat_lit| |delim_end].
    apply (gap_comment (lit "c") x0a []); [|left; reflexivity|apply gap_nil].
    intros b Hb [->| ->]; simpl in Hb; intuition discriminate.
  - apply no_ref_ok. right. vm_compute. discriminate.
Qed.

Lemma dictionary_refuted : exists f1 f2 s1 s2, wf f1 s1 /\ wf f2 s2 /\
  f1 = repeat x20 4095 ++ f2 /\ s1 = consume_ws (open_rd f1) /\ s2 = open_rd f2 /\
  rest s1 = rest s2 /\
  ~ same_outcome s1 s2 (ReadDictionary f1 no_decryptor s1) (ReadDictionary f2 no_decryptor s2).
Proof.
  exists (repeat x20 4095 ++ lit "<</A 1>>"), (lit "<</A 1>>").
  exists (consume_ws (open_rd (repeat x20 4095 ++ lit "<</A 1>>"))), (open_rd (lit "<</A 1>>")).
  split; [apply wf_ws, open_wf|]. split; [apply open_wf|]. split; [reflexivity|]. split; [reflexivity|].
  split; [reflexivity|]. split; [vm_compute; reflexivity|].
  assert (E1 : match ReadDictionary (repeat x20 4095 ++ lit "<</A 1>>") no_decryptor
                (consume_ws (open_rd (repeat x20 4095 ++ lit "<</A 1>>"))) with Ok (d, _) => d = [] | _ => False end)
    by (vm_compute; reflexivity).
  assert (E2 : match ReadDictionary (lit "<</A 1>>") no_decryptor (open_rd (lit "<</A 1>>")) with
               | Ok (d, _) => d <> [] | _ => False end) by (vm_compute; discriminate).
  unfold same_outcome. destruct (ReadDictionary (repeat x20 4095 ++ _) _ _) as [[d1 t1]| |]; try tauto.
  destruct (ReadDictionary _ _ _) as [[d2 t2]| |]; try tauto. subst d1. intros (H & _). congruence.
Qed.

Lemma C36_ex : exists f s, wf f s /\ rest (consume_ws s) = lit "<</A 1>>" /\ buf (consume_ws s) = 8.
Proof.
  exists (lit "  <</A 1>>"), (open_rd (lit "  <</A 1>>")). split; [apply open_wf|]. split; reflexivity.
Qed.
