(** PropLength.v -- C122: the data of a stream and its Length.  Only statements;
    the proofs are in LengthP.v, the witnesses in LengthEx.v. *)
From Verif Require Import Base Msg Reader Num Lexer Obj ReadObj Env Getters Crypt GetObj Load Output Render Parse SpecRead SpecFetch SpecLook SpecStream SpecOut OutEx SpecLength LengthP LengthEx.
From Coq Require Import Strings.String.

(** ** C122.  Full statement: the conclusion of C122_length_partial without its
    conditions on the data.  This is false: Length is not looked at, and data
    with the word "endstream" in it ends there.  The rest of an embedded file is
    neither listed nor dumped. *)
Theorem C122_length_refuted : exists E OD fuel S pw ops file p i n g d head raw eol, order_ok OD /\ s_input S = Some file /\ parse E OD fuel S pw = (ops, Ok PNone) /\
  load fuel E (o_objects OD) file pw (new_parser file) = Ok (None, p) /\ measured E file p i n g d head raw eol /\ usual file p i n g d /\ unfiltered E d raw (Some raw) /\
  fetched E file p n {| inum := n; igen := g; ival := ODict d; istream := Some (lit "abc ") |} /\ raw = lit "abc endstream xyz" /\
  (exists x, In (OpEv (EDump x (lit "abc "))) ops) /\ (forall x, ~ In (OpEv (EDump x raw)) ops).
Proof. exact length_refuted. Qed.
Print Assumptions C122_length_refuted.

(** Missing: data with the word in it, data that ends like an end-of-line marker
    and has none behind it, heads that do not fit into the buffer (C34). *)
Theorem C122_length_partial : forall E file p i n g d head raw eol out, measured E file p i n g d head raw eol -> usual file p i n g d -> reads file p ->
  zlen head + 9 <= bufsize -> ~ occurs (lit "endstream") raw -> eol_after raw eol -> unfiltered E d raw out ->
  fetched E file p n {| inum := n; igen := g; ival := ODict d; istream := out |}.
Proof. exact measured_read. Qed.
Print Assumptions C122_length_partial.

(** an indirect Length *)
Example C122_example : reads sized p12 /\ measured E1 sized p12 169 4 0 d13 head13 (lit "xyz") [x0a] /\ usual sized p12 169 4 0 d13 /\ zlen head13 + 9 <= bufsize /\
  ~ occurs (lit "endstream") (lit "xyz") /\ eol_after (lit "xyz") [x0a] /\ unfiltered E1 d13 (lit "xyz") (Some (lit "xyz")).
Proof. exact C122_ex. Qed.

(** What is read of data with the word in it: what the filters make of the part
    in front of it, without an end-of-line marker at its end. *)
Theorem C122_cut_partial : forall E file p i n g d head raw eol a e b out, measured E file p i n g d head raw eol -> usual file p i n g d -> reads file p ->
  zlen head + 9 <= bufsize -> raw = a ++ e ++ lit "endstream" ++ b -> ~ occurs (lit "endstream") a -> eol_after a e -> unfiltered E d a out ->
  fetched E file p n {| inum := n; igen := g; ival := ODict d; istream := out |}.
Proof. exact measured_cut. Qed.
Print Assumptions C122_cut_partial.

Example C122_cut_example : reads sized p12 /\ measured E1 sized p12 106 3 0 d12 head12 (lit "abc endstream xyz") [x0a] /\ usual sized p12 106 3 0 d12 /\ zlen head12 + 9 <= bufsize /\
  lit "abc endstream xyz" = lit "abc " ++ [] ++ lit "endstream" ++ lit " xyz" /\ ~ occurs (lit "endstream") (lit "abc ") /\ eol_after (lit "abc ") [] /\
  unfiltered E1 d12 (lit "abc ") (Some (lit "abc ")).
Proof. exact C122_cut_ex. Qed.
