(** PropErrors.v -- C87, C88: errors.txt. *)
From Verif Require Import Base Msg Reader Num Obj Env GetObj Output Load Parse SpecLex SpecObj SpecStream SpecTolerant SpecOut SpecErrors Errors
  OutEx ErrorsP ErrorsEx.
From Coq Require Import Strings.String.

(** ** C87.  After loading, errors.txt grows by one block for each object in use,
    in some order and without repetition: the messages the tolerant grammar
    (C86) gives for the object's text, then messages of readings of objects in
    use, all given by the same grammar or the message for an unclosed stream. *)
Theorem C87_accounted : exists value, good_values value /\
  forall E OD fuel file pw w p, order_ok OD -> parse_body E OD fuel file pw (new_parser file) = (w, Ok (None, p)) ->
  exists p1 ms, load fuel E (o_objects OD) file pw (new_parser file) = Ok (None, p1) /\ pxref p = pxref p1 /\
    errors_txt p = errors_txt p1 ++ fault_lines ms /\ accounted value file (pxref p1) ms.
Proof. exact errors_accounted. Qed.
Print Assumptions C87_accounted.

(** Nothing is missing: the messages for each object in use are lines of
    errors.txt, one after the other. *)
Theorem C87_reported : exists value, good_values value /\
  forall E OD fuel file pw w p n e u x own r, order_ok OD -> parse_body E OD fuel file pw (new_parser file) = (w, Ok (None, p)) ->
  xget n (pxref p) = Some e -> x_type e = 1 -> 0 <= x_off e -> head_in (zdrop (x_off e) file) u -> scan value u x own r ->
  exists a b, errors_txt p = a ++ fault_lines own ++ b.
Proof. exact errors_reported. Qed.
Print Assumptions C87_reported.

(** Nothing is invented: objects in good order add nothing. *)
Theorem C87_clean : forall E OD fuel file pw w p, order_ok OD -> parse_body E OD fuel file pw (new_parser file) = (w, Ok (None, p)) ->
  (forall n, in_use (pxref p) n -> orderly file (pxref p) n) ->
  exists p1, load fuel E (o_objects OD) file pw (new_parser file) = Ok (None, p1) /\ errors_txt p = errors_txt p1.
Proof. exact errors_clean. Qed.
Print Assumptions C87_clean.

Example C87_example : order_ok OD1 /\ parse_body E1 OD1 9 poor [] (new_parser poor) = (events poor, Ok (None, final poor)) /\
  load 9 E1 (o_objects OD1) poor [] (new_parser poor) = Ok (None, loaded poor) /\
  errors_txt (loaded poor) = fault_lines [MissingDictionaryValue] /\
  errors_txt (final poor) = fault_lines ([MissingDictionaryValue] ++
    [MissingDictionaryValue; MissingDictionaryValue; UnclosedStream; MissingDictionaryValue;
     InvalidNameEscapeChar; UnnecessaryEscapeName; InvalidOctal; UnnecessaryEscapeString]) /\
  xget 1 (pxref (final poor)) = Some (used_entry 0) /\
  head_in (zdrop 0 poor) (zdrop 7 poor) /\
  forall value, scan value (zdrop 7 poor) (IObj (OStr (lit "a?7"))) [InvalidOctal; UnnecessaryEscapeString] (zdrop 14 poor).
Proof. exact C87_ex. Qed.
Example C87_clean_example : order_ok OD1 /\ parse_body E1 OD1 9 neat [] (new_parser neat) = (events neat, Ok (None, final neat)) /\
  (forall n, in_use (pxref (final neat)) n -> orderly neat (pxref (final neat)) n) /\ in_use (pxref (final neat)) 2.
Proof. exact C87_clean_ex. Qed.

(** ** C88.  Full statement: every stream of an object in use for which there is
    no endstream is reported in errors.txt:
    forall E OD fuel file pw w p n r, order_ok OD ->
      parse_body E OD fuel file pw (new_parser file) = (w, Ok (None, p)) ->
      opened file (pxref p) n r -> exists a b, errors_txt p = a ++ lit "unclosed stream" ++ [x0a] ++ b.
    False: a file that ends right behind the keyword's line is not reported. *)
Theorem C88_unclosed_refuted : exists E OD fuel file pw w p n r, order_ok OD /\ parse_body E OD fuel file pw (new_parser file) = (w, Ok (None, p)) /\
  opened file (pxref p) n r /\ ~ exists a b, errors_txt p = a ++ lit "unclosed stream" ++ [x0a] ++ b.
Proof. exact unclosed_refuted. Qed.
Print Assumptions C88_unclosed_refuted.

(** True if there is a byte of data behind the keyword's line. *)
Theorem C88_unclosed_partial : forall E OD fuel file pw w p n line eol d, order_ok OD ->
  parse_body E OD fuel file pw (new_parser file) = (w, Ok (None, p)) ->
  opened file (pxref p) n (line ++ eol ++ d) -> no_eol line -> eol_before eol d -> d <> [] ->
  exists a b, errors_txt p = a ++ lit "unclosed stream" ++ [x0a] ++ b.
Proof. exact errors_unclosed. Qed.
Print Assumptions C88_unclosed_partial.

Example C88_example : order_ok OD1 /\ parse_body E1 OD1 9 cut [] (new_parser cut) = (events cut, Ok (None, final cut)) /\
  opened cut (pxref (final cut)) 1 ([] ++ [x0a] ++ lit "abc") /\ no_eol [] /\ eol_before [x0a] (lit "abc").
Proof. exact C88_ex. Qed.
