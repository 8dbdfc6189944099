(** TolerantEx.v -- a sloppy text in the grammar of SpecTolerant. *)
From Verif Require Import Base BaseP Msg Reader Num Obj SpecLex SpecLexP SpecObj SpecTolerant ReadEx.
From Coq Require Import Strings.String.

Ltac nohex := let v := fresh in let H := fresh in intros v H; apply hexdigit_spec in H; destruct H; discriminate.

(** an octal code above 255, a string as a key, an incomplete code in a name,
    a stray '>' in an array and a key without a value *)
Lemma sloppy : forall value, scan value (lit "<</A(\777)(k)/B#4x[a > ]/C>>z")
  (IObj (ODict [(lit "A", OStr (lit "?7")); (lit "B@x", OArr [OKw (lit "a"); OKw (lit "null")])]))
  [InvalidOctal; UnnecessaryEscapeString; InvalidDictionaryKeyType; InvalidNameEscapeChar; UnnecessaryEscapeName;
   MissingDictionaryValue] (lit "z").
Proof.
  intros value.
  assert (G0 : gap []) by (apply gap_nil).
  assert (NA : forall c r, In c (lit "([/>") -> name_in (c :: r) [] [] (c :: r)).
  { intros c r H. apply ni_end. right. exists c, r. split; [reflexivity|]. right. unfold delim_byte.
    vm_compute in H |- *. intuition. }
  apply (sc_dict value [] _ [(lit "A", OStr (lit "?7")); (lit "B@x", OArr [OKw (lit "a"); OKw (lit "null")])]); [exact G0| |].
  - apply (di_pair value _ (lit "A") [] (lit "(\777)(k)/B#4x[a > ]/C>>z") (IObj (OStr (lit "?7"))) (OStr (lit "?7"))
      [InvalidOctal; UnnecessaryEscapeString] (lit "(k)/B#4x[a > ]/C>>z") [(lit "B@x", OArr [OKw (lit "a"); OKw (lit "null")])]
      [InvalidDictionaryKeyType; InvalidNameEscapeChar; UnnecessaryEscapeName; MissingDictionaryValue]).
    + apply (sc_name value []); [exact G0|]. apply ni_char; [regular|discriminate|]. apply NA. in_list.
    + apply (sc_str value []); [exact G0|].
      apply (si_octal_large 0 "7" "7" "7" 7 7 7 "?" 1 (lit ")(k)/B#4x[a > ]/C>>z") (lit "7") []); try oct; [apply Nat.ltb_lt; reflexivity|notneeded|].
      apply si_plain; try discriminate. apply si_close.
    + apply ca_obj.
    + discriminate.
    + apply (di_bad_key value _ (IObj (OStr (lit "k"))) (OStr (lit "k")) [] (lit "/B#4x[a > ]/C>>z")).
      * apply (sc_str value []); [exact G0|]. apply si_plain; try discriminate. apply si_close.
      * apply ca_obj.
      * discriminate.
      * discriminate.
      * apply (di_pair value _ (lit "B@x") [InvalidNameEscapeChar; UnnecessaryEscapeName] (lit "[a > ]/C>>z")
          (IObj (OArr [OKw (lit "a"); OKw (lit "null")])) (OArr [OKw (lit "a"); OKw (lit "null")]) [] (lit "/C>>z") [] [MissingDictionaryValue]).
        -- apply (sc_name value []); [exact G0|]. apply ni_char; [regular|discriminate|].
           apply (ni_one_digit "4" 4 "@" 1 "x" (lit "[a > ]/C>>z") (lit "x") []); [left; reflexivity|nohex|reflexivity|notneeded|].
           apply ni_char; [regular|discriminate|]. apply NA. in_list.
        -- apply (sc_array value []); [exact G0|].
           apply (ai_more value _ (IObj (OKw (lit "a"))) (OKw (lit "a")) [] (lit " > ]/C>>z") [OKw (lit "null")] []).
           ++ apply (sc_kw value [] (lit "a")); [exact G0| |delim_end].
              exists "a"%byte, []. split; [reflexivity|]. split.
              ** intros c [<-|[]]. regular.
              ** let H := fresh in intros H; vm_compute in H; intuition discriminate.
           ++ apply ca_obj.
           ++ discriminate.
           ++ apply (ai_more value _ (IMark MHex) (OKw (lit "null")) [] (lit " ]/C>>z") [] []).
              ** apply (sc_mark value (lit " ") MHex); [apply gap1|discriminate].
              ** apply ca_mark.
              ** discriminate.
              ** apply ai_close. apply (sc_mark value (lit " ") MArray); [apply gap1|discriminate].
        -- apply ca_obj.
        -- discriminate.
        -- apply (di_no_value value _ (lit "C") [] (lit ">>z") (IMark MDict) []).
           ++ apply (sc_name value []); [exact G0|]. apply ni_char; [regular|discriminate|]. apply NA. in_list.
           ++ apply (sc_mark value [] MDict); [exact G0|discriminate].
           ++ right. reflexivity.
  - apply (as_new [(lit "A", OStr (lit "?7"))] [(lit "A", OStr (lit "?7"))]).
    + apply (as_new [] []); [apply as_none|intros []].
    + simpl. intros [H|[]]. discriminate H.
Qed.
