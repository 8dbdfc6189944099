(** PropScript.v -- C124: the encoding of scripts.  Only statements; the proofs
    are in ScriptP.v, the witnesses in ScriptEx.v. *)
From Verif Require Import Base Msg Reader Num Lexer Obj ReadObj Env Getters Crypt GetObj Load Tree Output Render Parse SpecRead SpecFetch SpecLook SpecOut TreeEx OutEx SpecForm SpecScript ScriptP ScriptEx.
From Coq Require Import Strings.String.

(** ** C124.  Full statement: the conclusion of C124_scripts_partial for every
    text string.  This is false: a script in UTF-16BE is written as it stands,
    with its byte order mark, between scripts in ASCII. *)
Theorem C124_scripts_refuted : exists E OD fuel S pw ops file p n o d h s us, order_ok OD /\ s_input S = Some file /\ parse E OD fuel S pw = (ops, Ok PNone) /\
  load fuel E (o_objects OD) file pw (new_parser file) = Ok (None, p) /\ offsets_ok (pxref p) /\ in_use p n /\ fetched E file p n o /\ ival o = ODict d /\ holds (ODict d) h /\
  script_of E file p h s /\ text_string s us /\ flat_map utf8 us = lit "go" /\ ~ In (OpEv (EWrite FJavascript (flat_map utf8 us ++ [x0a]))) ops /\
  In (OpEv (EWrite FJavascript ([xfe; xff; x00; "g"%byte; x00; "o"%byte] ++ [x0a]))) ops.
Proof. exact script_refuted. Qed.
Print Assumptions C124_scripts_refuted.

(** Missing: scripts with a byte order mark. *)
Theorem C124_scripts_partial : forall E OD fuel S pw ops file p, order_ok OD -> s_input S = Some file ->
  parse E OD fuel S pw = (ops, Ok PNone) -> load fuel E (o_objects OD) file pw (new_parser file) = Ok (None, p) -> offsets_ok (pxref p) ->
  forall n o d h s us, in_use p n -> fetched E file p n o -> ival o = ODict d -> holds (ODict d) h -> script_of E file p h s -> text_string s us ->
    (forall r, s <> xfe :: xff :: r) -> In (OpEv (EWrite FJavascript (flat_map utf8 us ++ [x0a]))) ops.
Proof. exact script_text. Qed.
Print Assumptions C124_scripts_partial.

Example C124_example : order_ok OD1 /\ s_input S16 = Some coded /\ parse E1 OD1 20 S16 [] = (ops16, Ok PNone) /\
  load 20 E1 (o_objects OD1) coded [] (new_parser coded) = Ok (None, p16) /\ offsets_ok (pxref p16) /\ in_use p16 2 /\ fetched E1 coded p16 2 (plain 2 (ODict js17)) /\
  holds (ODict js17) js17 /\ script_of E1 coded p16 js17 (lit "run") /\ text_string (lit "run") [114; 117; 110] /\ (forall r, lit "run" <> xfe :: xff :: r).
Proof. exact C124_ex. Qed.
