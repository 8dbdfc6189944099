(** PropStream.v -- C33-C35: stream data. *)
From Verif Require Import Base Msg Reader ReaderP Num Lexer Obj ReadObj Bits Filters Env Getters Crypt Stream GetObj
  SpecLex SpecObj SpecRead SpecFetch SpecStream StreamObjP FetchEx StreamEx.
From Coq Require Import Strings.String.

(** ** C33: an object [head t stream EOL data EOL endstream] at the offset of
    its entry, whose dictionary names its filters directly.  The bound of 4096
    bytes is explained under C35. *)
Theorem C33_stream_pipeline : forall E file p n e head hn hg g1 t d v g2 pre eol data eol' r fs fd fl pl c fl' pl' out,
  reads file p -> xget n (pxref p) = Some e -> x_type e = 1 -> 0 <= x_off e ->
  object_head head hn hg -> gap g1 -> obj_text t (ODict d) -> gap g2 -> no_eol pre -> ends_token (pre ++ eol) ->
  eol_before eol (data ++ eol' ++ lit "endstream" ++ r) -> ~ occurs (lit "endstream") data -> eol_after data eol' ->
  zdrop (x_off e) file = head ++ g1 ++ t ++ g2 ++ lit "stream" ++ pre ++ eol ++ data ++ eol' ++ lit "endstream" ++ r ->
  zlen (head ++ g1 ++ t ++ g2 ++ lit "stream" ++ pre ++ eol) + 9 <= bufsize ->
  (forall s, new_decryptor E (if x_enc e then sh_string (psh p) else CFNone) n (x_gen e) s = Ok (fs s)) ->
  map_strings fs (ODict d) = ODict v -> filters_of v fl -> parms_of v pl ->
  stream_crypt (psh p) v (x_enc e) fl pl c fl' pl' ->
  new_decryptor E c n (x_gen e) data = Ok fd -> decoded E fl' pl' (Some fd) out ->
  exists f0, forall fuel, (f0 <= fuel)%nat -> exists p',
    GetObject fuel E file n p = Ok ({| inum := n; igen := x_gen e; ival := ODict v; istream := out |}, p') /\
    log (prd p') = log (prd p).
Proof. exact stream_object. Qed.
Print Assumptions C33_stream_pipeline.

Example C33_example : let fl := [OName (lit "Crypt"); OName (lit "ASCIIHexDecode"); OName (lit "Foo"); OName (lit "RunLengthDecode")] in
  let pl := [ODict [(lit "Name", OName (lit "CF1"))]] in
  let h := {| sh_stream := CFRC4 (lit "k"); sh_string := CFNone; sh_file := CFNone; sh_filters := [(lit "Identity", CFNone); (lit "CF1", CFNone)] |} in
  obj_text two_text (ODict two_filters) /\ filters_of two_filters fl /\ parms_of two_filters pl /\
  stream_crypt h two_filters true fl pl CFNone (tl fl) [] /\
  decoded E0 (tl fl) [] (Some (lit "0241 4243>")) (Some (lit "ABC")).
Proof. exact C33_ex. Qed.

(** ** C34: the full statement is [C34_stream_data_partial] without [buffered].
    It is false for an object whose data starts less than nine bytes before the
    end of the 4096 byte buffer: the marker is never recognised. *)
Theorem C34_stream_data_refuted : exists file p head g1 t d data r, reads file p /\ offsets_ok (pxref p) /\
  xget 1 (pxref p) = Some (new_xentry 0 0 1) /\
  object_head head 1 0 /\ gap g1 /\ obj_text t (ODict d) /\
  file = head ++ g1 ++ t ++ lit "stream" ++ x0a :: data ++ x0a :: lit "endstream" ++ r /\
  ~ occurs (lit "endstream") data /\ eol_after data [x0a] /\
  forall E, exists p', GetObject 9 E file 1 p =
    Ok ({| inum := 1; igen := 0; ival := ODict d; istream := Some (data ++ x0a :: lit "endstream" ++ r) |}, p') /\
    log (prd p') = [UnclosedStream].
Proof. exact stream_refuted. Qed.
Print Assumptions C34_stream_data_refuted.

Theorem C34_stream_data_partial : forall file s pre eol data eol' r, wf file s -> no_eol pre ->
  rest s = pre ++ eol ++ data ++ eol' ++ lit "endstream" ++ r ->
  eol_before eol (data ++ eol' ++ lit "endstream" ++ r) -> ~ occurs (lit "endstream") data -> eol_after data eol' ->
  buffered (zlen (pre ++ eol) + 9) s ->
  exists s', read_stream_raw s = (Some data, s') /\ moved file s s' r [].
Proof. exact stream_data. Qed.
Print Assumptions C34_stream_data_partial.

(** Without a marker the data extends to the end of the file, and one message is written. *)
Theorem C34_unclosed_partial : forall file s pre eol data, wf file s -> no_eol pre -> rest s = pre ++ eol ++ data ->
  eol_before eol data -> data <> [] -> ~ occurs (lit "endstream") data -> buffered (zlen (pre ++ eol) + 9) s ->
  exists s', read_stream_raw s = (Some data, s') /\ moved file s s' [] [UnclosedStream].
Proof. exact stream_open. Qed.
Print Assumptions C34_unclosed_partial.

Example C34_example : exists file s pre eol data eol' r, wf file s /\ no_eol pre /\ rest s = pre ++ eol ++ data ++ eol' ++ lit "endstream" ++ r /\
  eol_before eol (data ++ eol' ++ lit "endstream" ++ r) /\ ~ occurs (lit "endstream") data /\ eol_after data eol' /\
  buffered (zlen (pre ++ eol) + 9) s /\ data = lit "a endstrea" ++ [x0d; x0a].
Proof. exact C34_ex. Qed.
Example C34_unclosed_example : exists file s data, wf file s /\ rest s = [] ++ [x0a] ++ data /\ eol_before [x0a] data /\ data <> [] /\
  ~ occurs (lit "endstream") data /\ buffered (zlen ([] ++ [x0a]) + 9) s.
Proof. exact C34_open_ex. Qed.

(** ** C35: the full statement is
    [wf f1 s1 -> wf f2 s2 -> rest s1 = rest s2 -> raw_alike s1 s2 (read_stream_raw s1) (read_stream_raw s2)]. *)
Theorem C35_buffering_refuted : exists file s1 s2, wf file s1 /\ wf file s2 /\
  s1 = snd (read_keyword (open_rd file)) /\ s2 = seek file (pos s1) s1 /\ pos s1 = pos s2 /\ rest s1 = rest s2 /\
  fst (read_stream_raw s1) = Some (lit "abcdefghij" ++ x0a :: lit "endstream endobj") /\
  fst (read_stream_raw s2) = Some (lit "abcdefghij").
Proof. exact buffering_refuted. Qed.
Print Assumptions C35_buffering_refuted.

(** It holds when neither buffer ends within the first nine bytes of the data. *)
Theorem C35_buffering_partial : forall f1 f2 s1 s2, wf f1 s1 -> wf f2 s2 -> rest s1 = rest s2 ->
  (forall k, stream_head (rest s1) k -> buffered (k + 9) s1 /\ buffered (k + 9) s2) ->
  let x := read_stream_raw s1 in let y := read_stream_raw s2 in
  fst x = fst y /\ rest (snd x) = rest (snd y) /\ pos (snd x) - pos s1 = pos (snd y) - pos s2 /\
  exists ms, log (snd x) = log s1 ++ ms /\ log (snd y) = log s2 ++ ms.
Proof. exact stream_unbuffered. Qed.
Print Assumptions C35_buffering_partial.

Example C35_example : exists file s1 s2, wf file s1 /\ wf file s2 /\ rest s1 = rest s2 /\ buf s1 <> buf s2 /\
  (forall k, stream_head (rest s1) k -> buffered (k + 9) s1 /\ buffered (k + 9) s2) /\ stream_head (rest s1) 1.
Proof. exact C35_ex. Qed.
