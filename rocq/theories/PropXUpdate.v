(** PropXUpdate.v -- reading back documents with incremental updates that have
    cross-reference streams: C111. *)
From Verif Require Import Base Msg Reader Num Obj ReadObj Env Getters GetObj Xref Load Extract Output Parse Errors SpecFetch SpecRead SpecRecover SpecOut SpecPage SpecObj SpecStream SpecXref SpecWrite SpecFollow SpecUpdate SpecXWrite SpecXUpdate SpecList
  XUpdateOutP XUPutP ListRunP OutEx WriteEx XUpdateEx.
From Coq Require Import Strings.String Sorting.Permutation.

(** ** C111.  Load of a document with updates, each with its own cross-reference
    stream, succeeds.  Every object that is neither freed nor replaced later is
    read back as it was given to the writer, the streams among them; all other
    numbers stand for null.  Each key of the trailer has the value of the newest
    stream that has it, and further entries come only from the first object of
    an update.  No message is logged. *)
Theorem C111_updates : forall E rs, good_xupdates E rs ->
  exists F, forall fuel ord pw, (F <= fuel)%nat -> (forall m, Permutation (ord m) m) ->
  exists p, load fuel E ord (w_xupdated rs) pw (new_parser (w_xupdated rs)) = Ok (None, p) /\
    (forall o, In o (xliving rs) -> fetched E (w_xupdated rs) p (inum o) o) /\
    (forall n, ~ In n (map inum (xliving rs)) -> fetched E (w_xupdated rs) p n {| inum := n; igen := 0; ival := OKw (lit "null"); istream := None |}) /\
    (forall k v, xkey k rs = Some v -> entry (ptrailer p) k = Some v) /\
    (forall k v, entry (ptrailer p) k = Some v -> xkey k rs = Some v \/ exists d, xfirst_of rs d /\ entry d k = Some v) /\ errors_txt p = [].
Proof. exact xupdates_read. Qed.
Print Assumptions C111_updates.

(** raw.pdf holds these objects, each once, and none that was freed or replaced ... *)
Theorem C111_raw : forall E rs, good_xupdates E rs -> forall OD fuel S pw ops, order_ok OD ->
  s_input S = Some (w_xupdated rs) -> parse E OD fuel S pw = (ops, Ok PNone) ->
  exists L ts, Permutation L (xliving rs) /\ Forall2 (written_object (e_fmt E)) L ts /\
    content FRaw ops = List.concat (map (fun t => t ++ [x0a]) ts).
Proof. exact (fun E rs G OD fuel S pw ops => stored_raw E OD fuel S pw ops _ _ (st_xupdated E rs pw G)). Qed.
Print Assumptions C111_raw.

(** ... errors.txt stays empty ... *)
Theorem C111_no_errors : forall E rs, good_xupdates E rs -> forall OD fuel pw w p, order_ok OD ->
  parse_body E OD fuel (w_xupdated rs) pw (new_parser (w_xupdated rs)) = (w, Ok (None, p)) -> errors_txt p = [].
Proof. exact xupdates_errors. Qed.
Print Assumptions C111_no_errors.

(** ... and Parse returns without an error, when kids are listed in their nodes
    (C47) and no character map has the largest number in it (C45). *)
Theorem C111_returns : forall E rs OD S pw, good_xupdates E rs -> direct_kids (xliving rs) -> moderate_maps (xliving rs) -> order_ok OD -> e_verbose E <> None ->
  s_input S = Some (w_xupdated rs) -> (forall f, s_create S f = true) ->
  exists F, forall fuel, (F <= fuel)%nat -> exists ops, parse E OD fuel S pw = (ops, Ok PNone).
Proof. exact (fun E rs OD S pw G => stored_return E _ pw _ OD S (st_xupdated E rs pw G)). Qed.
Print Assumptions C111_returns.

(** Every list of updates can be written in this way: one record for each object,
    for each number that is freed and for the stream itself, numbered by the
    index, and linked to the stream before. *)
Theorem C111_written : forall E ps, good_plans ps -> good_xupdates E (p_updates ps).
Proof. exact updates_written. Qed.
Print Assumptions C111_written.
Theorem C111_trailer : forall p prev off k, lay_plan p -> In k (map fst (pl_trailer p)) -> entry (xv_dict (p_revision prev off p)) k = entry (pl_trailer p) k.
Proof. exact plan_trailer. Qed.
Print Assumptions C111_trailer.

(** The document of C90 with two updates: the first gives the numbers 4 and 6
    again and frees 9, the second frees 10, and its stream has the number the
    first stream had. *)
Example C111_example : good_plans PS /\ good_xupdates E1 XRS /\ map inum (xliving XRS) = map inum (firstn 3 D0 ++ skipn 6 D0) ++ [4; 6; 11; 13; 8] /\
  xkey (lit "Info") XRS = Some (ORef 10 0) /\ xkey (lit "Size") XRS = Some (ONum (num_of_Z 14)) /\
  w_xrevision 1027 (p_revision (Some 827) 1027 P2) = List.concat (map (fun l => lit l ++ [x0a]) [
  "13 0 obj";
  "<6e6577>";
  "endobj";
  "8 0 obj";
  "<< /Type /XRef /W [ 1 5 2] /Index [ 10 1 13 1 8 1] /Prev 827 /Size 14>>";
  "stream"]%string) ++ [x00; x00; x00; x00; x00; x00; xff; xff; x01; x00; x00; x00; x04; x03; x00; x00; x01; x00; x00; x00; x04; x1c; x00; x00; x0a] ++
  List.concat (map (fun l => lit l ++ [x0a]) ["endstream"; "endobj"; ""; "startxref"; "1052"; "%%EOF"]%string) /\
  skipn (Z.to_nat 1027) (w_xupdated XRS) = w_xrevision 1027 (p_revision (Some 827) 1027 P2).
Proof. exact C111_ex. Qed.
Example C111_example_raw : order_ok OD1 /\ s_input SXU = Some (w_xupdated XRS) /\ parse E1 OD1 40 SXU [] = (SXU_ops, Ok PNone) /\
  content FText SXU_ops = lit "y" ++ [x0a] /\ content FURLs SXU_ops = lit "http://x.example/(a" ++ [x0a].
Proof. exact C111_ex_raw. Qed.
Example C111_example_list : stored E1 (w_xupdated XRS) [] (xliving XRS) /\ doc_urls 1 (xliving XRS) = Some [lit "http://x.example/(a"] /\ direct_kids (xliving XRS) /\ moderate_maps (xliving XRS) /\ e_verbose E1 <> None /\ (forall f, s_create SXU f = true).
Proof. exact C111_ex_list. Qed.
