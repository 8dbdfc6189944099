(** ErrorsEx.v -- witnesses for PropErrors.v. *)
From Verif Require Import Base BaseP Msg Reader ReaderP Num Lexer Obj ReadObj Env Getters Crypt GetObj Load Tree Output Parse
  SpecLex SpecLexP SpecObj SpecStream SpecTolerant SpecOut SpecErrors FetchEx OutEx ReadEx StreamEx XrefEx Errors TolerantEx.
From Coq Require Import Strings.String.

Definition final (file : bytes) : pst := match snd (parse_body E1 OD1 9 file [] (new_parser file)) with Ok (_, p) => p | _ => nothing end.
Definition events (file : bytes) : list ev := fst (parse_body E1 OD1 9 file [] (new_parser file)).
Definition loaded (file : bytes) : pst := match load 9 E1 (o_objects OD1) file [] (new_parser file) with Ok (_, p) => p | _ => nothing end.
Definition used_entry (off : Z) : xentry := {| x_off := off; x_gen := 0; x_type := 1; x_enc := true; x_stm := false |}.

(** Object 1: an octal code above 255.  Object 2: an incomplete code in a name.
    Object 3: a key without a value.  Object 4: a stream that is not closed,
    whose dictionary refers to object 3. *)
Definition poor : bytes :=
  lit "1 0 obj(a\777)endobj 2 0 obj[3 0 R/B#4]endobj 3 0 obj<</A 1/C>>endobj 4 0 obj<</Filter 3 0 R>>stream" ++ x0a :: lit "abc".
Lemma poor_run : parse_body E1 OD1 9 poor [] (new_parser poor) = (events poor, Ok (None, final poor)).
Proof. vm_compute. reflexivity. Qed.
Lemma C87_ex : order_ok OD1 /\ parse_body E1 OD1 9 poor [] (new_parser poor) = (events poor, Ok (None, final poor)) /\
  load 9 E1 (o_objects OD1) poor [] (new_parser poor) = Ok (None, loaded poor) /\
  errors_txt (loaded poor) = fault_lines [MissingDictionaryValue] /\
  errors_txt (final poor) = fault_lines ([MissingDictionaryValue] ++
    [(* 4: the list and the name of filters *) MissingDictionaryValue; MissingDictionaryValue; UnclosedStream; (* 3 *) MissingDictionaryValue;
     (* 2 *) InvalidNameEscapeChar; UnnecessaryEscapeName; (* 1 *) InvalidOctal; UnnecessaryEscapeString]) /\
  xget 1 (pxref (final poor)) = Some (used_entry 0) /\
  head_in (zdrop 0 poor) (zdrop 7 poor) /\
  forall value, scan value (zdrop 7 poor) (IObj (OStr (lit "a?7"))) [InvalidOctal; UnnecessaryEscapeString] (zdrop 14 poor).
Proof.
  split; [exact OD1_ok|]. split; [exact poor_run|]. split; [vm_compute; reflexivity|]. split; [vm_compute; reflexivity|]. split; [vm_compute; reflexivity|].
  split; [vm_compute; reflexivity|]. split.
  - change (zdrop 0 poor) with ([] ++ lit "1" ++ lit " " ++ lit "0" ++ lit " " ++ lit "obj" ++ zdrop 7 poor).
    apply (hd_two [] (lit "1") 1 (lit " ") (lit "0") 0 (lit " ") (lit "obj")); try discriminate; first [gaps|nat_lit|idtac].
    + intros b [<-|[<-|[<-|[]]]]; regular.
    + delim_end.
  - intros value. change (zdrop 7 poor) with ([] ++ "("%byte :: lit "a\777)" ++ zdrop 14 poor). apply sc_str; [apply gap_nil|]. cbn [app lit].
    apply si_plain; try discriminate.
    apply (si_octal_large 0 "7" "7" "7" 7 7 7 "?" 1 (")"%byte :: zdrop 14 poor) (lit "7") []); try oct; [apply Nat.ltb_lt; reflexivity|notneeded|].
    apply si_plain; try discriminate. apply si_close.
Qed.

(** two objects in good order *)
Definition neat : bytes := lit "1 0 obj<</A(x)>>endobj 2 0 obj[1 0 R]endobj ".
Lemma neat_xref : pxref (final neat) = [(1, used_entry 0); (2, used_entry 23)].
Proof. vm_compute. reflexivity. Qed.
Lemma C87_clean_ex : order_ok OD1 /\ parse_body E1 OD1 9 neat [] (new_parser neat) = (events neat, Ok (None, final neat)) /\
  (forall n, in_use (pxref (final neat)) n -> orderly neat (pxref (final neat)) n) /\ in_use (pxref (final neat)) 2.
Proof.
  split; [exact OD1_ok|]. split; [vm_compute; reflexivity|]. rewrite neat_xref. split; [|eexists; split; reflexivity].
  intros n (e & X & _). unfold xget in X. cbn [mget] in X. destruct (n =? 1) eqn:Q1; [apply Z.eqb_eq in Q1; subst n|destruct (n =? 2) eqn:Q2; [apply Z.eqb_eq in Q2; subst n|discriminate]].
  - exists (used_entry 0), (lit "1 0 obj"), 1, 0, [], (lit "<</A(x)>>"), (ODict [(lit "A", OStr (lit "x"))]), [], (lit " 2 0 obj[1 0 R]endobj ").
    split; [reflexivity|]. split; [cbn; lia|]. split; [reflexivity|].
    split; [apply (oh_intro [] (lit "1") 1 (lit " ") (lit "0") 0 (lit " ")); first [gaps|nat_lit|discriminate]|].
    split; [gaps|]. split; [delim_end|]. split; [|split; [exact I|split; [gaps|delim_end]]].
    apply (ot_dict (lit "/A(x)") [(lit "A", OStr (lit "x"))]); [|keys]. cbn [flatten].
    apply (cons0 (lit "/A")); [nm| |right; delim_end]. apply (cons0 (lit "(x)")); [|apply nil0|left; exact I].
    apply (ot_str (lit "x")). plain. apply sb_nil.
  - exists (used_entry 23), (lit "2 0 obj"), 2, 0, [], (lit "[1 0 R]"), (OArr [ORef 1 0]), [], (lit " ").
    split; [reflexivity|]. split; [cbn; lia|]. split; [reflexivity|].
    split; [apply (oh_intro [] (lit "2") 2 (lit " ") (lit "0") 0 (lit " ")); first [gaps|nat_lit|discriminate]|].
    split; [gaps|]. split; [delim_end|]. split; [|split; [exact I|split; [gaps|delim_end]]].
    apply (ot_arr (lit "1 0 R")). apply (cons0 (lit "1 0 R")); [|apply nil0|right; apply end0].
    apply (ot_ref (lit "1") 1 (lit " ") (lit "0") 0 (lit " ")); first [gaps|nat_lit|discriminate|lia].
Qed.

(** ** C88 *)
Definition mute : bytes := lit "1 0 obj<<>>stream" ++ [x0a].
Lemma no_endstream : forall r, existsb (fun k => bseq (firstn 9 (skipn k r)) (lit "endstream")) (seq 0 (List.length r)) = false -> ~ occurs (lit "endstream") r.
Proof.
  intros r H (a & b & ->). assert (X : existsb (fun k => bseq (firstn 9 (skipn k (a ++ lit "endstream" ++ b))) (lit "endstream")) (seq 0 (List.length (a ++ lit "endstream" ++ b))) = true).
  { apply existsb_exists. exists (List.length a). split; [apply in_seq; rewrite !app_length; simpl; lia|]. rewrite skipn_app, skipn_all, Nat.sub_diag. reflexivity. }
  congruence.
Qed.
Lemma opened_at : forall file x n r head t d, xget n x = Some (used_entry 0) -> file = head ++ t ++ lit "stream" ++ r -> object_head head n 0 ->
  obj_text t (ODict d) -> ends_token r -> ~ occurs (lit "endstream") r -> opened file x n r.
Proof.
  intros file x n r head t d X F H T En O. exists (used_entry 0), head, n, 0, [], t, d, []. split; [exact X|]. split; [reflexivity|]. split; [cbn; lia|].
  split; [cbn [used_entry x_off]; rewrite zdrop_skipn by lia; exact F|]. split; [exact H|]. split; [apply gap_nil|]. split; [exact T|]. split; [apply gap_nil|]. auto.
Qed.
Lemma unclosed_refuted : exists E OD fuel file pw w p n r, order_ok OD /\ parse_body E OD fuel file pw (new_parser file) = (w, Ok (None, p)) /\
  opened file (pxref p) n r /\ ~ exists a b, errors_txt p = a ++ lit "unclosed stream" ++ [x0a] ++ b.
Proof.
  exists E1, OD1, 9%nat, mute, [], (events mute), (final mute), 1, [x0a]. split; [exact OD1_ok|]. split; [vm_compute; reflexivity|]. split.
  - apply (opened_at _ _ _ _ (lit "1 0 obj") (lit "<<>>") []); [vm_compute; reflexivity|reflexivity|exact head1| |delim_end|apply no_endstream; reflexivity].
    apply (ot_dict [] []); [apply it_nil, gap_nil|constructor].
  - assert (Z : errors_txt (final mute) = []) by (vm_compute; reflexivity). rewrite Z. intros (a & b & Q). destruct a; discriminate.
Qed.
Definition cut : bytes := lit "1 0 obj<<>>stream" ++ x0a :: lit "abc".
Lemma C88_ex : order_ok OD1 /\ parse_body E1 OD1 9 cut [] (new_parser cut) = (events cut, Ok (None, final cut)) /\
  opened cut (pxref (final cut)) 1 ([] ++ [x0a] ++ lit "abc") /\ no_eol [] /\ eol_before [x0a] (lit "abc").
Proof.
  split; [exact OD1_ok|]. split; [vm_compute; reflexivity|]. split.
  - apply (opened_at _ _ _ _ (lit "1 0 obj") (lit "<<>>") []); [vm_compute; reflexivity|reflexivity|exact head1| |delim_end|apply no_endstream; reflexivity].
    apply (ot_dict [] []); [apply it_nil, gap_nil|constructor].
  - split; [intros b []|apply eb_lf].
Qed.
