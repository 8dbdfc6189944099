(** PropWrong.v -- C114, C115: documents with wrong offsets, and with bytes in
    front and behind. *)
From Verif Require Import Base Msg Reader Num Obj ReadObj Env Getters GetObj Xref Load Extract Output Parse Errors SpecLex SpecFetch SpecRead SpecOut SpecPage SpecObj SpecStream SpecScan SpecXref SpecWrite SpecFollow SpecWrong SpecList
  WrongP WrongRunP ListRunP OutEx WriteEx WrongEx.
From Coq Require Import Strings.String Sorting.Permutation.

(** ** C114.  Full statement: bytes in front of a written document that have no
    "obj" and no "xref" do not change what is read from it: every object is read
    as it was written and the trailer has the same entries, although every
    offset in the file is wrong.

    This fails.  An offset is kept if the number of the object stands there, even
    if there is no object (pdf/parser.go:57-70), and so the object is read from
    the middle of another one ... *)
Theorem C114_front_refuted : exists E front D tr o ord p, good_document D tr /\ ~ occurs (lit "obj") front /\ ~ occurs (lit "xref") front /\ (forall m, Permutation (ord m) m) /\
  load 9 E ord (w_behind front D tr) [] (new_parser (w_behind front D tr)) = Ok (None, p) /\ In o D /\ ~ fetched E (w_behind front D tr) p (inum o) (as_written o).
Proof. exact C114_bad. Qed.
Print Assumptions C114_front_refuted.

(** ... and an object at the place that startxref gives is taken for a
    cross-reference stream whatever it is: its entries get into the trailer. *)
Theorem C114_trailer_refuted : exists E front D tr k ord p, good_document D tr /\ ~ occurs (lit "obj") front /\ ~ occurs (lit "xref") front /\ (forall m, Permutation (ord m) m) /\
  load 9 E ord (w_behind front D tr) [] (new_parser (w_behind front D tr)) = Ok (None, p) /\ entry tr k = None /\ entry (ptrailer p) k = Some (ONum (num_of_Z 1)).
Proof. exact C114_bad_trailer. Qed.
Print Assumptions C114_trailer_refuted.

(** What holds for any offsets, any bytes in front and any missing lines of the
    table, and the bytes behind that C115 allows, if nothing is at the place that startxref gives: every object is
    found whose offset is [harmless], numbers of no object stand for null, the
    trailer has its own entries, and no message is logged. *)
Theorem C114_offsets_partial : forall E front D l tr off back, lay_wrong front D l tr off back -> forall fuel ord pw, (2 <= fuel)%nat -> (forall m, Permutation (ord m) m) ->
  let file := w_wrong front D l tr off back in exists p, load fuel E ord file pw (new_parser file) = Ok (None, p) /\
    (forall o, In o D -> (forall k, In (k, o) l -> harmless file k (inum o)) -> fetched E file p (inum o) (as_written o)) /\
    (forall n, ~ In n (map inum D) -> fetched E file p n {| inum := n; igen := 0; ival := OKw (lit "null"); istream := None |}) /\
    (forall k, entry (ptrailer p) k = entry tr k) /\ errors_txt p = [].
Proof. exact wrong_read. Qed.
Print Assumptions C114_offsets_partial.

(** For bytes in front: *)
Theorem C114_front_partial : forall E front D tr, good_document D tr -> ~ occurs (lit "obj") front -> ~ occurs (lit "xref") front -> no_section (w_behind front D tr) (zlen (w_body D)) ->
  forall fuel ord pw, (2 <= fuel)%nat -> (forall m, Permutation (ord m) m) ->
  let file := w_behind front D tr in exists p, load fuel E ord file pw (new_parser file) = Ok (None, p) /\
    (forall k o, In (k, o) (w_places (zlen w_version) D) -> harmless file k (inum o) -> fetched E file p (inum o) (as_written o)) /\
    (forall n, ~ In n (map inum D) -> fetched E file p n {| inum := n; igen := 0; ival := OKw (lit "null"); istream := None |}) /\
    (forall k, entry (ptrailer p) k = entry tr k) /\ errors_txt p = [].
Proof. exact behind_read. Qed.
Print Assumptions C114_front_partial.

(** Without conditions on the places: 3 bytes in front, as a byte order mark has,
    or 5, or 6, do not matter for any document. *)
Theorem C114_mark_partial : forall E front D tr, good_document D tr -> few front -> ~ occurs (lit "obj") front -> ~ occurs (lit "xref") front ->
  forall fuel ord pw, (2 <= fuel)%nat -> (forall m, Permutation (ord m) m) ->
  let file := w_behind front D tr in exists p, load fuel E ord file pw (new_parser file) = Ok (None, p) /\
    (forall o, In o D -> fetched E file p (inum o) (as_written o)) /\
    (forall n, ~ In n (map inum D) -> fetched E file p n {| inum := n; igen := 0; ival := OKw (lit "null"); istream := None |}) /\
    (forall k, entry (ptrailer p) k = entry tr k) /\ errors_txt p = [].
Proof. exact few_read. Qed.
Print Assumptions C114_mark_partial.

(** If no offset misleads, Parse writes every object once ... *)
Theorem C114_raw_partial : forall E front D l tr off back, wrong_document front D l tr off back -> forall OD fuel S pw ops, order_ok OD ->
  s_input S = Some (w_wrong front D l tr off back) -> parse E OD fuel S pw = (ops, Ok PNone) ->
  exists L ts, Permutation L (map as_written D) /\ Forall2 (written_object (e_fmt E)) L ts /\ content FRaw ops = List.concat (map (fun t => t ++ [x0a]) ts).
Proof. exact (fun E front D l tr off back WD OD fuel S pw ops => stored_raw E OD fuel S pw ops _ _ (st_wrong E front D l tr off back pw WD)). Qed.
Print Assumptions C114_raw_partial.

(** ... reports nothing ... *)
Theorem C114_no_errors_partial : forall E front D l tr off back, wrong_document front D l tr off back -> forall OD fuel pw w p, order_ok OD ->
  parse_body E OD fuel (w_wrong front D l tr off back) pw (new_parser (w_wrong front D l tr off back)) = (w, Ok (None, p)) -> errors_txt p = [].
Proof. exact wrong_errors. Qed.
Print Assumptions C114_no_errors_partial.

(** ... and comes back. *)
Theorem C114_returns_partial : forall E front D l tr off back OD S pw, wrong_document front D l tr off back -> direct_kids D -> moderate_maps D -> order_ok OD -> e_verbose E <> None ->
  s_input S = Some (w_wrong front D l tr off back) -> (forall f, s_create S f = true) ->
  exists F, forall fuel, (F <= fuel)%nat -> exists ops, parse E OD fuel S pw = (ops, Ok PNone).
Proof. exact wrong_return. Qed.
Print Assumptions C114_returns_partial.

(** The document of C90 between lines of mail, with three lines in its table, all
    wrong: one leads to another object, one behind the end of the file, one into
    a string. *)
Example C114_example : wrong_document JX D0 lX tr0 77 KX /\ direct_kids D0 /\ moderate_maps D0 /\ order_ok OD1 /\ e_verbose E1 <> None /\ s_input SX = Some (w_wrong JX D0 lX tr0 77 KX) /\ (forall f, s_create SX f = true) /\
  parse E1 OD1 30 SX [] = (SX_ops, Ok PNone) /\ content FURLs SX_ops = lit "http://x.example/(a" ++ [x0a] /\ map fst lX = [137; 9999999999; 100].
Proof. exact C114_ex. Qed.
(** The same document behind a byte order mark. *)
Example C114_example_mark : good_document D0 tr0 /\ few JB /\ ~ occurs (lit "obj") JB /\ ~ occurs (lit "xref") JB /\ s_input SB = Some (w_behind JB D0 tr0) /\ parse E1 OD1 30 SB [] = (SB_ops, Ok PNone) /\
  content FURLs SB_ops = lit "http://x.example/(a" ++ [x0a].
Proof. exact C114_ex_mark. Qed.

(** ** C115.  Full statement: bytes behind the end of a written document that have
    no "obj" and no "xref" do not change what is read from it.

    This fails: the "xref" in "startxref" is taken for a table
    (pdf/parser.go:94-117).  If a number follows the end, it is the length of a
    section of that table ... *)
Theorem C115_number_refuted : exists E D tr back n ord p, good_document D tr /\ ~ occurs (lit "obj") back /\ ~ occurs (lit "xref") back /\ ~ occurs (lit "<<") back /\ (forall m, Permutation (ord m) m) /\
  load 9 E ord (w_before D tr back) [] (new_parser (w_before D tr back)) = Ok (None, p) /\ ~ In n (map inum D) /\
  fetched E (w_before D tr back) p n {| inum := n; igen := 0; ival := match D with o :: _ => ival (as_written o) | [] => OKw [] end; istream := None |} /\ D <> [].
Proof. exact C115_bad. Qed.
Print Assumptions C115_number_refuted.

(** ... and a dictionary is its trailer, which may even be encrypted. *)
Theorem C115_trailer_refuted : exists E D tr back ord p, good_document D tr /\ ~ occurs (lit "obj") back /\ ~ occurs (lit "xref") back /\ (forall n, ~ int_at back 0 n) /\ (forall m, Permutation (ord m) m) /\
  load 9 E ord (w_before D tr back) [] (new_parser (w_before D tr back)) = Ok (Some EncryptionError, p).
Proof. exact C115_bad_trailer. Qed.
Print Assumptions C115_trailer_refuted.

(** What holds: bytes that do not begin with a number and have no "<<" either, of
    any length, so that "startxref" may be too far from the end to be found. *)
Theorem C115_behind_partial : forall E D tr back, good_document D tr -> quiet_end back -> forall fuel ord pw, (2 <= fuel)%nat -> (forall m, Permutation (ord m) m) ->
  let file := w_before D tr back in exists p, load fuel E ord file pw (new_parser file) = Ok (None, p) /\
    (forall o, In o D -> fetched E file p (inum o) (as_written o)) /\
    (forall n, ~ In n (map inum D) -> fetched E file p n {| inum := n; igen := 0; ival := OKw (lit "null"); istream := None |}) /\
    (forall k, entry (ptrailer p) k = entry tr k) /\ errors_txt p = [].
Proof. exact before_read. Qed.
Print Assumptions C115_behind_partial.
Theorem C115_raw_partial : forall E D tr back OD fuel S pw ops, good_document D tr -> quiet_end back -> order_ok OD -> s_input S = Some (w_before D tr back) -> parse E OD fuel S pw = (ops, Ok PNone) ->
  exists L ts, Permutation L (map as_written D) /\ Forall2 (written_object (e_fmt E)) L ts /\ content FRaw ops = List.concat (map (fun t => t ++ [x0a]) ts).
Proof. exact before_raw. Qed.
Print Assumptions C115_raw_partial.
Theorem C115_no_errors_partial : forall E D tr back OD fuel pw w p, good_document D tr -> quiet_end back -> order_ok OD ->
  parse_body E OD fuel (w_before D tr back) pw (new_parser (w_before D tr back)) = (w, Ok (None, p)) -> errors_txt p = [].
Proof. exact before_errors. Qed.
Print Assumptions C115_no_errors_partial.
Theorem C115_returns_partial : forall E D tr back OD S pw, good_document D tr -> quiet_end back -> direct_kids D -> moderate_maps D -> order_ok OD -> e_verbose E <> None ->
  s_input S = Some (w_before D tr back) -> (forall f, s_create S f = true) ->
  exists F, forall fuel, (F <= fuel)%nat -> exists ops, parse E OD fuel S pw = (ops, Ok PNone).
Proof. exact before_return. Qed.
Print Assumptions C115_returns_partial.

(** The document of C90 with a line of mail, some markup and zeros behind it. *)
Example C115_example : good_document D0 tr0 /\ quiet_end KX /\ direct_kids D0 /\ moderate_maps D0 /\ order_ok OD1 /\ e_verbose E1 <> None /\ s_input SK = Some (w_before D0 tr0 KX) /\ (forall f, s_create SK f = true) /\
  parse E1 OD1 30 SK [] = (SK_ops, Ok PNone) /\ content FURLs SK_ops = lit "http://x.example/(a" ++ [x0a] /\ zlen KX = 22.
Proof. exact C115_ex. Qed.
