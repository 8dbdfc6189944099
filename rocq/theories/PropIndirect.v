(** PropIndirect.v -- C123: filters and parameters given through references.
    Only statements; the proofs are in IndirectP.v, the witness in IndirectEx.v. *)
From Verif Require Import Base Msg Reader Num Lexer Obj ReadObj Env Getters Crypt GetObj Load Output Render Parse SpecLex SpecObj SpecRead SpecFetch SpecLook SpecStream SpecOut OutEx SpecIndirect IndirectP IndirectEx.
From Coq Require Import Strings.String.

(** ** C123.  The reader comes back from the objects referred to, and there is no
    condition on the buffer (as in C34): it is filled anew behind the head. *)
Theorem C123_indirect : forall E file p n e head hn hg g1 t d v g2 eol data eol' r fs fd fl pl c out,
  reads file p -> offsets_ok (pxref p) -> xget n (pxref p) = Some e -> x_type e = 1 ->
  object_head head hn hg -> gap g1 -> obj_text t (ODict d) -> gap g2 ->
  eol_before eol (data ++ eol' ++ lit "endstream" ++ r) -> ~ occurs (lit "endstream") data -> eol_after data eol' ->
  zdrop (x_off e) file = head ++ g1 ++ t ++ g2 ++ lit "stream" ++ eol ++ data ++ eol' ++ lit "endstream" ++ r ->
  (forall s, new_decryptor E (if x_enc e then sh_string (psh p) else CFNone) n (x_gen e) s = Ok (fs s)) ->
  map_strings fs (ODict d) = ODict v -> refers v (lit "Filter") \/ refers v (lit "DecodeParms") ->
  filters_through E file p v fl -> parms_through E file p v pl -> crypt_through E file p (psh p) v fl (x_enc e) c ->
  new_decryptor E c n (x_gen e) data = Ok fd -> decoded_through E file p fl pl (Some fd) out ->
  fetched E file p n {| inum := n; igen := x_gen e; ival := ODict v; istream := out |}.
Proof. exact indirect_stream. Qed.
Print Assumptions C123_indirect.

(** Two filters, one of them in an object of its own; nothing is encrypted, so
    [fs] is the identity and [fd] is the data. *)
Example C123_example : reads spread p14 /\ offsets_ok (pxref p14) /\ xget 1 (pxref p14) = Some e14 /\ x_type e14 = 1 /\ object_head (lit "1 0 obj") 1 0 /\
  obj_text (lit "<</Filter 2 0 R/DecodeParms 4 0 R>>") (ODict d14) /\ eol_before [x0a] (data14 ++ [x0a] ++ lit "endstream" ++ zdrop 70 spread) /\
  ~ occurs (lit "endstream") data14 /\ eol_after data14 [x0a] /\
  zdrop (x_off e14) spread = lit "1 0 obj" ++ [] ++ lit "<</Filter 2 0 R/DecodeParms 4 0 R>>" ++ [] ++ lit "stream" ++ [x0a] ++ data14 ++ [x0a] ++ lit "endstream" ++ zdrop 70 spread /\
  (forall s, new_decryptor E1 (if x_enc e14 then sh_string (psh p14) else CFNone) 1 (x_gen e14) s = Ok s) /\ map_strings (fun s => s) (ODict d14) = ODict d14 /\
  refers d14 (lit "Filter") /\ filters_through E1 spread p14 d14 fl14 /\ parms_through E1 spread p14 d14 [ODict []] /\
  crypt_through E1 spread p14 (psh p14) d14 fl14 (x_enc e14) CFNone /\ new_decryptor E1 CFNone 1 (x_gen e14) data14 = Ok data14 /\ decoded_through E1 spread p14 fl14 [ODict []] (Some data14) (Some (lit "abc")).
Proof. exact C123_ex. Qed.
