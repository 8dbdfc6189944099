(** ScriptP.v -- the encoding of scripts (C124). *)
From Verif Require Import Base BaseP Msg Reader Num Lexer Obj ReadObj Env Getters Crypt GetObj Load Output Render Parse SpecRead SpecFetch SpecLook SpecOut OutP ExtractP SpecForm SpecScript.
From Coq Require Import Strings.String.

Lemma ascii_utf8 : forall s, (forall b, In b s -> ascii_char b) -> flat_map utf8 (map bv s) = s.
Proof.
  intros s. induction s as [| b s IH]; intros A; [reflexivity |]. cbn [map flat_map]. rewrite IH by (intros c I; apply A; right; exact I).
  specialize (A b (or_introl eq_refl)). unfold ascii_char in A. clear IH. revert A. destruct b; intros A; first [reflexivity | exfalso; vm_compute in A; intuition discriminate].
Qed.
Theorem script_text : forall E OD fuel S pw ops file p, order_ok OD -> s_input S = Some file ->
  parse E OD fuel S pw = (ops, Ok PNone) -> load fuel E (o_objects OD) file pw (new_parser file) = Ok (None, p) -> offsets_ok (pxref p) ->
  forall n o d h s us, in_use p n -> fetched E file p n o -> ival o = ODict d -> holds (ODict d) h -> script_of E file p h s -> text_string s us ->
    (forall r, s <> xfe :: xff :: r) -> In (OpEv (EWrite FJavascript (flat_map utf8 us ++ [x0a]))) ops.
Proof.
  intros E OD fuel S pw ops file p OK SI P L O n o d h s us U F V H SC TX N. destruct TX as [r vs _ | t A]; [exfalso; exact (N r eq_refl) |]. rewrite (ascii_utf8 t A).
  exact (proj2 (parse_uris E OD fuel S pw ops file p OK SI P L O n o d h U F V H) t SC).
Qed.
