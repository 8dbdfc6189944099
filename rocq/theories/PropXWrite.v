(** PropXWrite.v -- reading back documents with a cross-reference stream: C101. *)
From Verif Require Import Base Msg Reader Num Obj ReadObj Env Getters GetObj Xref Load Extract Output Parse Errors SpecFetch SpecRead SpecRecover SpecOut SpecPage SpecObj SpecStream SpecXref SpecWrite SpecFollow SpecXWrite SpecList
  XOutP XPutP OutEx WriteEx XWriteEx.
From Coq Require Import Strings.String Sorting.Permutation.

(** ** C101.  Load of a document with a cross-reference stream succeeds, every
    object is read back as it was given to the writer, the stream too, with its
    data decoded; all other numbers stand for null; the dictionary of the stream
    is the trailer; and no message is logged. *)
Theorem C101_round_trip : forall E D xs d data, good_xdocument E D xs d data ->
  exists F, forall fuel ord pw, (F <= fuel)%nat -> (forall m, Permutation (ord m) m) ->
  exists p, load fuel E ord (w_xdocument D xs) pw (new_parser (w_xdocument D xs)) = Ok (None, p) /\
    (forall o, In o D -> fetched E (w_xdocument D xs) p (inum o) (as_written o)) /\ fetched E (w_xdocument D xs) p (inum xs) (x_read xs data) /\
    (forall n, ~ In n (map inum (D ++ [xs])) -> fetched E (w_xdocument D xs) p n {| inum := n; igen := 0; ival := OKw (lit "null"); istream := None |}) /\
    (forall k, entry (ptrailer p) k = entry d k) /\ errors_txt p = [].
Proof. exact xdocument_read. Qed.
Print Assumptions C101_round_trip.

(** raw.pdf holds these objects, each once ... *)
Theorem C101_raw : forall E D xs d data, good_xdocument E D xs d data -> forall OD fuel S pw ops, order_ok OD ->
  s_input S = Some (w_xdocument D xs) -> parse E OD fuel S pw = (ops, Ok PNone) ->
  exists L ts, Permutation L (map as_written D ++ [x_read xs data]) /\ Forall2 (written_object (e_fmt E)) L ts /\
    content FRaw ops = List.concat (map (fun t => t ++ [x0a]) ts).
Proof. exact xdocument_out. Qed.
Print Assumptions C101_raw.

(** ... and errors.txt stays empty. *)
Theorem C101_no_errors : forall E D xs d data, good_xdocument E D xs d data -> forall OD fuel pw w p, order_ok OD ->
  parse_body E OD fuel (w_xdocument D xs) pw (new_parser (w_xdocument D xs)) = (w, Ok (None, p)) -> errors_txt p = [].
Proof. exact xdocument_errors. Qed.
Print Assumptions C101_no_errors.

(** Every list of objects that can be written with a table can be written with
    a stream: numbers, offsets and generations as big-endian records, the data in
    hexadecimal where it has to be. *)
Theorem C101_written : forall E D n tr, good_trailer D n tr ->
  exists d, good_xdocument E D (w_xstream D n tr) d (w_xdata D n) /\ (forall k, In k (map fst tr) -> entry d k = entry tr k).
Proof. exact xwritten. Qed.
Print Assumptions C101_written.

Example C101_example : good_trailer DH 2 [(lit "Root", ORef 1 0)] /\ w_xdocument DH xH = List.concat (map (fun l => lit l ++ [x0a]) [
  "%PDF-1.7";
  "1 0 obj";
  "<< /JS <676f>>>";
  "endobj";
  "3 13 obj";
  "true";
  "endobj";
  "2 0 obj";
  "<< /Type /XRef /Size 4 /W [ 1 5 2] /Root 1 0 R /Filter /ASCIIHexDecode>>";
  "stream";
  "000000000000ffff010000000009000001000000003d0000010000000028000d>";
  "endstream";
  "endobj";
  "";
  "startxref";
  "61";
  "%%EOF"]%string).
Proof. exact C101_ex. Qed.
Example C101_example_raw : good_trailer D0 8 trX /\ order_ok OD1 /\ s_input SX = Some (w_xdocument D0 XS) /\ parse E1 OD1 30 SX [] = (SX_ops, Ok PNone) /\
  content FText SX_ops = lit "x" ++ [x0a] /\ content FURLs SX_ops = lit "http://x.example/(a" ++ [x0a].
Proof. exact C101_ex_raw. Qed.
Example C101_example_list : stored E1 (w_xdocument D0 XS) [] (map as_written D0 ++ [x_read XS (w_xdata D0 8)]) /\ doc_urls 1 (map as_written D0 ++ [x_read XS (w_xdata D0 8)]) = Some [lit "http://x.example/(a"].
Proof. exact C101_ex_list. Qed.
