(** PropChain.v -- C70: what is true of chained actions.  Only statements; the
    proofs are in ChainP.v, the witness in ChainEx.v. *)
From Verif Require Import Base Msg Reader Num Lexer Obj ReadObj Env Getters Crypt GetObj Load Output Render Parse SpecRead SpecFetch SpecLook SpecOut OutEx SpecSource SpecChain ChainP ChainEx.
From Coq Require Import Strings.String.

(** ** C70 (the full statement is at C70_chained_refuted, PropSource.v).
    The scripts and the addresses of chained actions are written, however long
    the chain is.  Missing: their commands. *)
Theorem C70_scripts_partial : forall E OD fuel S pw ops file p, order_ok OD -> s_input S = Some file ->
  parse E OD fuel S pw = (ops, Ok PNone) -> load fuel E (o_objects OD) file pw (new_parser file) = Ok (None, p) -> offsets_ok (pxref p) ->
  forall h a b, of_document E file p h -> action_of E file p h a -> chained E file p a b ->
    (forall u, uri_of E file p b u -> In (OpEv (EWrite FURLs (u ++ [x0a]))) ops) /\
    (forall s, script_of E file p b s -> In (OpEv (EWrite FJavascript (s ++ [x0a]))) ops).
Proof. exact chain_scripts. Qed.
Print Assumptions C70_scripts_partial.

Example C70_example : order_ok OD1 /\ s_input S15 = Some links /\ parse E1 OD1 20 S15 [] = (ops15, Ok PNone) /\
  load 20 E1 (o_objects OD1) links [] (new_parser links) = Ok (None, p15) /\ offsets_ok (pxref p15) /\
  of_document E1 links p15 [(lit "A", ODict act15)] /\ action_of E1 links p15 [(lit "A", ODict act15)] act15 /\
  chained E1 links p15 act15 js15 /\ script_of E1 links p15 js15 (lit "go") /\ chained E1 links p15 act15 uri15 /\ uri_of E1 links p15 uri15 (lit "http://u").
Proof. exact C70_ex. Qed.
