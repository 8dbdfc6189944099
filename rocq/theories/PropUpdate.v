(** PropUpdate.v -- reading back a document written with incremental updates:
    C95, C96. *)
From Verif Require Import Base Msg Reader Num Obj ReadObj Env Getters GetObj Xref Load Extract Output Parse Errors SpecFetch SpecRead SpecRecover SpecOut SpecPage SpecObj SpecStream SpecWrite SpecFollow SpecUpdate
  UpdateOutP OutEx WriteEx UpdateEx.
From Coq Require Import Strings.String Sorting.Permutation.

(** ** C95.  Load of a document with updates succeeds.  Every object that is
    neither freed nor replaced later is read back as it was given to the writer.
    All other numbers, the freed ones among them, stand for null.  Each key of
    the trailer has its newest value, and further entries come only from the
    first object of an update.  No message is logged. *)
Theorem C95_updates : forall E rs, good_updates rs -> forall fuel ord pw, (2 <= fuel)%nat -> (List.length rs <= fuel)%nat -> (forall m, Permutation (ord m) m) ->
  exists p, load fuel E ord (w_updated rs) pw (new_parser (w_updated rs)) = Ok (None, p) /\
    (forall o, In o (living rs) -> fetched E (w_updated rs) p (inum o) (as_written o)) /\
    (forall n, ~ In n (map inum (living rs)) -> fetched E (w_updated rs) p n {| inum := n; igen := 0; ival := OKw (lit "null"); istream := None |}) /\
    (forall k v, k <> lit "Prev" -> current_key k rs None = Some v -> entry (ptrailer p) k = Some v) /\
    (forall k v, k <> lit "Prev" -> entry (ptrailer p) k = Some v -> current_key k rs None = Some v \/ exists d, first_of rs d /\ entry d k = Some v) /\
    errors_txt p = [].
Proof. exact updates_read. Qed.
Print Assumptions C95_updates.

(** A document with one revision is the one of C90. *)
Theorem C95_single : forall D tr, w_updated [{| rv_objects := D; rv_freed := []; rv_trailer := tr |}] = w_document D tr.
Proof. exact single_revision. Qed.
Print Assumptions C95_single.

(** The document of C90 with two updates: the first gives the numbers 4 and 6
    again and frees 9, the second frees 10 and has no objects. *)
Example C95_example : good_updates RS /\
  living RS = firstn 3 D0 ++ skipn 6 D0 ++ firstn 2 (rv_objects R1) /\
  current_key (lit "Info") RS None = Some (ORef 10 0) /\ current_key (lit "Size") RS None = Some (ONum (num_of_Z 13)) /\
  (exists d, first_of RS d /\ entry d (lit "Producer") = Some (OName (lit "B"))) /\
  skipn (List.length (w_document D0 tr0)) (w_updated RS) = List.concat (map (fun l => lit l ++ [x0a]) [
  "4 0 obj";
  "<< /Producer /B>>";
  "stream";
  "BT (y) Tj ET";
  "endstream";
  "endobj";
  "6 1 obj";
  "<736978>";
  "endobj";
  "10 0 obj";
  "false";
  "endobj";
  "xref";
  "0 1";
  "0000000000 65535 f ";
  "9 1";
  "0000000000 65535 f ";
  "4 1";
  "0000000747 00000 n ";
  "6 1";
  "0000000810 00001 n ";
  "10 1";
  "0000000834 00000 n ";
  "trailer";
  "<< /Root 1 0 R /Size 11 /Info 10 0 R /Prev 496>>";
  "startxref";
  "856";
  "%%EOF";
  "xref";
  "0 1";
  "0000000000 65535 f ";
  "10 1";
  "0000000000 65535 f ";
  "12 1";
  "0000000000 65535 f ";
  "trailer";
  "<< /Size 13 /Prev 856>>";
  "startxref";
  "1059";
  "%%EOF"]%string).
Proof. exact C95_ex. Qed.

(** ** C96.  raw.pdf holds the newest objects, each once, and none that was
    freed or replaced ... *)
Theorem C96_raw : forall E rs OD fuel S pw ops, good_updates rs -> order_ok OD -> (2 <= fuel)%nat -> (List.length rs <= fuel)%nat ->
  s_input S = Some (w_updated rs) -> parse E OD fuel S pw = (ops, Ok PNone) ->
  exists L ts, Permutation L (map as_written (living rs)) /\ Forall2 (written_object (e_fmt E)) L ts /\
    content FRaw ops = List.concat (map (fun t => t ++ [x0a]) ts).
Proof. exact updates_out. Qed.
Print Assumptions C96_raw.

(** ... errors.txt stays empty ... *)
Theorem C96_no_errors : forall E rs OD fuel pw w p, good_updates rs -> order_ok OD -> (2 <= fuel)%nat -> (List.length rs <= fuel)%nat ->
  parse_body E OD fuel (w_updated rs) pw (new_parser (w_updated rs)) = (w, Ok (None, p)) -> errors_txt p = [].
Proof. exact updates_errors. Qed.
Print Assumptions C96_no_errors.

(** ... and Parse returns without an error, when kids are listed in their nodes
    (C47) and no character map has the largest number in it (C45). *)
Theorem C96_returns : forall E rs OD S pw, good_updates rs -> direct_kids (living rs) -> moderate_maps (living rs) -> order_ok OD -> e_verbose E <> None ->
  s_input S = Some (w_updated rs) -> (forall f, s_create S f = true) ->
  exists F, forall fuel, (F <= fuel)%nat -> exists ops, parse E OD fuel S pw = (ops, Ok PNone).
Proof. exact updates_return. Qed.
Print Assumptions C96_returns.

Example C96_example : order_ok OD1 /\ s_input SU = Some (w_updated RS) /\ parse E1 OD1 30 SU [] = (SU_ops, Ok PNone) /\ content FText SU_ops = lit "y" ++ [x0a].
Proof. exact C96_ex. Qed.
Example C96_example_returns : direct_kids (living RS) /\ moderate_maps (living RS) /\ e_verbose E1 <> None /\ (forall f, s_create SU f = true).
Proof. exact C96_ex2. Qed.
