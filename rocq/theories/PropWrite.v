(** PropWrite.v -- reading back what a writer wrote: C90, C91, C92. *)
From Verif Require Import Base Msg Reader Num Obj ReadObj Env Getters GetObj Xref Load Extract Output Parse Errors SpecFetch SpecRead SpecRecover SpecOut SpecPage SpecObj SpecStream SpecWrite SpecFollow
  WriteOutP WriteRunP OutEx WriteEx.
From Coq Require Import Strings.String Sorting.Permutation.

(** ** C90.  Load of a written document succeeds, every object is read back as
    it was given to the writer, all other numbers stand for null, the trailer is
    the one given, and no message is logged. *)
Theorem C90_round_trip : forall E D tr, good_document D tr -> forall fuel ord pw, (2 <= fuel)%nat -> (forall m, Permutation (ord m) m) ->
  exists p, load fuel E ord (w_document D tr) pw (new_parser (w_document D tr)) = Ok (None, p) /\
    (forall o, In o D -> fetched E (w_document D tr) p (inum o) (as_written o)) /\
    (forall n, ~ In n (map inum D) -> fetched E (w_document D tr) p n {| inum := n; igen := 0; ival := OKw (lit "null"); istream := None |}) /\
    (forall k, entry (ptrailer p) k = entry tr k) /\ errors_txt p = [].
Proof. exact document_read. Qed.
Print Assumptions C90_round_trip.

Example C90_example : good_document D0 tr0 /\ w_document D0 tr0 = List.concat (map (fun l => lit l ++ [x0a]) [
  "%PDF-1.7";
  "1 0 obj";
  "<< /Type /Catalog /Pages 2 0 R /OpenAction << /S /URI /URI <687474703a2f2f782e6578616d706c652f2861>>>>>";
  "endobj";
  "2 0 obj";
  "<< /Kids [ 3 0 R] /Count 1>>";
  "endobj";
  "3 0 obj";
  "<< /Contents 4 0 R>>";
  "endobj";
  "4 0 obj";
  "<< /Note <656e6473747265616d20656e646f626a> /Filter /ASCIIHexDecode>>";
  "stream";
  "42542028782920546a20455420656e6473747265616d>";
  "endstream";
  "endobj";
  "9 3 obj";
  "[ -7 <00285c0dff> /A#20B#23#2fc 6 0 R true <<>>]";
  "endobj";
  "6 0 obj";
  "9 3 R";
  "endobj";
  "7 0 obj";
  "<< /N 1>>";
  "stream";
  "q 1 0 0 RG";
  "Q";
  "endstream";
  "endobj";
  "xref";
  "0 1";
  "0000000000 65535 f ";
  "1 1";
  "0000000009 00000 n ";
  "2 1";
  "0000000128 00000 n ";
  "3 1";
  "0000000172 00000 n ";
  "4 1";
  "0000000208 00000 n ";
  "9 1";
  "0000000356 00003 n ";
  "6 1";
  "0000000420 00000 n ";
  "7 1";
  "0000000441 00000 n ";
  "trailer";
  "<< /Root 1 0 R /Size 10>>";
  "startxref";
  "496";
  "%%EOF"]%string).
Proof. exact C90_ex. Qed.

(** ** C91.  raw.pdf holds the objects of a written document, each once ... *)
Theorem C91_raw : forall E D tr OD fuel S pw ops, good_document D tr -> order_ok OD -> (2 <= fuel)%nat ->
  s_input S = Some (w_document D tr) -> parse E OD fuel S pw = (ops, Ok PNone) ->
  exists L ts, Permutation L (map as_written D) /\ Forall2 (written_object (e_fmt E)) L ts /\
    content FRaw ops = List.concat (map (fun t => t ++ [x0a]) ts).
Proof. exact document_out. Qed.
Print Assumptions C91_raw.

(** ... and errors.txt stays empty. *)
Theorem C91_no_errors : forall E D tr OD fuel pw w p, good_document D tr -> order_ok OD -> (2 <= fuel)%nat ->
  parse_body E OD fuel (w_document D tr) pw (new_parser (w_document D tr)) = (w, Ok (None, p)) -> errors_txt p = [].
Proof. exact document_errors. Qed.
Print Assumptions C91_no_errors.

(** So it is for every document without /Encrypt in which the cross-reference
    entries in use lead to well-formed objects: extracting adds no message to
    those of loading. *)
Theorem C91_silent : forall E OD fuel file pw w p, order_ok OD -> (2 <= fuel)%nat -> parse_body E OD fuel file pw (new_parser file) = (w, Ok (None, p)) ->
  entry (ptrailer p) (lit "Encrypt") = None ->
  (forall n e, xget n (pxref p) = Some e -> x_type e = 1 -> exists o, object_at E file (x_off e) o /\ inum o = n /\ igen o = x_gen e) ->
  exists p1, load fuel E (o_objects OD) file pw (new_parser file) = Ok (None, p1) /\ errors_txt p = errors_txt p1.
Proof. exact silent_errors. Qed.
Print Assumptions C91_silent.

Example C91_example : order_ok OD1 /\ s_input SW = Some (w_document D0 tr0) /\ parse E1 OD1 30 SW [] = (SW_ops, Ok PNone) /\
  content FText SW_ops = lit "x" ++ [x0a] /\ content FURLs SW_ops = lit "http://x.example/(a" ++ [x0a].
Proof. exact C91_ex. Qed.

(** ** C92.  Parse returns, without an error, for every written document in
    which kids are listed in their nodes (C47) and no character map has the
    largest number in it (C45). *)
Theorem C92_returns : forall E D tr OD S pw, good_document D tr -> direct_kids D -> moderate_maps D -> order_ok OD -> e_verbose E <> None ->
  s_input S = Some (w_document D tr) -> (forall f, s_create S f = true) ->
  exists F, forall fuel, (F <= fuel)%nat -> exists ops, parse E OD fuel S pw = (ops, Ok PNone).
Proof. exact document_returns. Qed.
Print Assumptions C92_returns.

Example C92_example : good_document D0 tr0 /\ direct_kids D0 /\ moderate_maps D0 /\ e_verbose E1 <> None /\ (forall f, s_create SW f = true).
Proof. exact C92_ex. Qed.
