(** PropPacked.v -- objects kept in object streams (C104). *)
From Verif Require Import Base Msg Reader Num Obj ReadObj Env Crypt GetObj Load Extract Output Parse SpecLex SpecObj SpecFetch SpecOut SpecPacked OutEx PackedP PackedEx.
From Coq Require Import Strings.String.

(** ** C104: an object kept in an object stream is fetched like any other.
    Full statement:
    [forall E file p n v, reads file p -> compressed E file p n v -> exists o, fetched E file p n o /\ ival o = v].
    This is false; the open action of this document is such an object, and its
    script is not found. *)
Theorem C104_compressed_refuted : exists E OD fuel S pw ops file p n v, order_ok OD /\ parse E OD fuel S pw = (ops, Ok PNone) /\ s_input S = Some file /\
  load fuel E (o_objects OD) file pw (new_parser file) = Ok (None, p) /\ compressed E file p n v /\
  v = ODict [(lit "S", OName (lit "JavaScript")); (lit "JS", OStr (lit "evil"))] /\ (forall o, fetched E file p n o -> ival o <> v) /\
  content FJavascript ops = [].
Proof. exact compressed_refuted. Qed.
Print Assumptions C104_compressed_refuted.
(** It is so for all of them: each is fetched as null ... *)
Theorem C104_always_null : forall E file p n v, compressed E file p n v -> forall fuel,
  GetObject (S fuel) E file n p = Ok ({| inum := n; igen := 0; ival := OKw (lit "null"); istream := None |}, p).
Proof. exact compressed_null. Qed.
Print Assumptions C104_always_null.
(** ... but its text is in raw.pdf, as a part of the stream.  Missing: the
    object itself. *)
Theorem C104_printed_partial : forall E OD fuel S pw ops file p n v, order_ok OD -> parse E OD fuel S pw = (ops, Ok PNone) -> s_input S = Some file ->
  load fuel E (o_objects OD) file pw (new_parser file) = Ok (None, p) -> offsets_ok (pxref p) -> compressed E file p n v ->
  exists a t r b, obj_text t v /\ may_follow v r /\ content FRaw ops = a ++ t ++ r ++ [x0a] ++ lit "endstream" ++ b.
Proof. exact packed_printed. Qed.
Print Assumptions C104_printed_partial.
Example C104_example : order_ok OD1 /\ parse E1 OD1 20 pk_S [] = (pk_ops, Ok PNone) /\ s_input pk_S = Some pk_doc /\
  load 20 E1 (o_objects OD1) pk_doc [] (new_parser pk_doc) = Ok (None, pk_p) /\ offsets_ok (pxref pk_p) /\ compressed E1 pk_doc pk_p 5 pk_action.
Proof. exact C104_ex. Qed.
