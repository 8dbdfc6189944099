(** PropRaw.v -- C80, C81: reading raw.pdf and files without cross-reference
    data.  Only statements; the proofs are in RawReadP.v and RecoverP.v, the
    witnesses in RawReadEx.v and RecoverEx.v. *)
From Verif Require Import Base Msg Reader Num Lexer Obj ReadObj Env Getters Crypt GetObj Load Output Render Parse SpecLex SpecObj SpecFetch FetchEx SpecOut SpecStream SpecScan
  SpecLook OutEx SpecRaw RawReadP RawReadEx SpecRecover RecoverP RecoverEx.
From Coq Require Import Strings.String Sorting.Permutation.

(** ** C80: raw.pdf can be read again.
    Full statement: every object that is printed to raw.pdf can be fetched from
    raw.pdf, and is then the same object.  This is false for strings with
    unbalanced parentheses or backslashes, which are printed as they are, and
    for streams, which are printed decoded while the dictionary keeps the names
    of the filters. *)
Theorem C80_string_refuted : exists E OD fuel S pw ops file p o, order_ok OD /\ fmt_ok (e_fmt E) /\ parse E OD fuel S pw = (ops, Ok PNone) /\ s_input S = Some file /\
  load fuel E (o_objects OD) file pw (new_parser file) = Ok (None, p) /\ fetched E file p 1 o /\ ival o = OStr (lit ")") /\ istream o = None /\
  ~ read_again E (content FRaw ops) o.
Proof. exact paren_refuted. Qed.
Print Assumptions C80_string_refuted.

Theorem C80_stream_refuted : exists E OD fuel S pw ops file p o, order_ok OD /\ fmt_ok (e_fmt E) /\ parse E OD fuel S pw = (ops, Ok PNone) /\ s_input S = Some file /\
  load fuel E (o_objects OD) file pw (new_parser file) = Ok (None, p) /\ fetched E file p 1 o /\ printable (ival o) /\ istream o = Some (lit "41") /\
  ~ read_again E (content FRaw ops) o.
Proof. exact coded_refuted. Qed.
Print Assumptions C80_stream_refuted.

(** True for objects made of strings and names that need no escapes, with a
    stream only if it names no filter.  Missing: the other objects. *)
Theorem C80_raw_partial : forall E OD fuel S pw ops (ok : iobj -> Prop), order_ok OD -> fmt_ok (e_fmt E) -> parse E OD fuel S pw = (ops, Ok PNone) ->
  (forall o, ok o -> istream o = None \/ exists data, istream o = Some data /\ plain_stream (e_fmt E) o data) ->
  exists file p1, s_input S = Some file /\ load fuel E (o_objects OD) file pw (new_parser file) = Ok (None, p1) /\
    forall n, in_use p1 n -> exists q o, kept file p1 q /\ fetched E file q n o /\ inum o = n /\
      (0 <= n -> 0 <= igen o -> printable (ival o) -> ok o -> read_again E (content FRaw ops) o).
Proof. exact raw_reread. Qed.
Print Assumptions C80_raw_partial.

Example C80_example : order_ok OD1 /\ fmt_ok (e_fmt E6) /\ parse E6 OD1 9 S10 [] = (ops10, Ok PNone) /\ s_input S10 = Some fine /\
  load 9 E6 (o_objects OD1) fine [] (new_parser fine) = Ok (None, p10) /\
  in_use p10 1 /\ fetched E6 fine p10 1 o10 /\ printable (ival o10) /\ istream o10 = None /\
  in_use p10 2 /\ fetched E6 fine p10 2 o11 /\ printable (ival o11) /\ plain_stream (e_fmt E6) o11 (lit "abc").
Proof. exact C80_ex. Qed.

(** ** C81: documents without cross-reference data are read in full.
    Full statement: if the keyword xref does not occur in a file, then every
    object in it is found, by its number, the last one if there are several.
    This is false: a text in a string that looks like the start of an object
    hides the object of that number. *)
Theorem C81_recovery_refuted : exists E fuel ord file pw objs p i o, (2 <= fuel)%nat /\ (forall m, Permutation (ord m) m) /\ ~ occurs (lit "xref") file /\
  (forall i o, In (i, o) objs -> object_at E file i o) /\ last_object objs i o /\
  load fuel E ord file pw (new_parser file) = Ok (None, p) /\ ~ fetched E file p (inum o) o.
Proof. exact quoted_refuted. Qed.
Print Assumptions C81_recovery_refuted.

(** True if nothing else in the file looks like the start of an object, and for
    heads short enough for the read buffer (C34, C36). *)
Theorem C81_recovery_partial : forall E fuel ord file pw objs, (2 <= fuel)%nat -> (forall m, Permutation (ord m) m) -> ~ occurs (lit "xref") file ->
  (forall i o, In (i, o) objs -> object_at E file i o) -> only_at file (map fst objs) ->
  exists p, load fuel E ord file pw (new_parser file) = Ok (None, p) /\ reads file p /\ offsets_ok (pxref p) /\
    (forall i o, last_object objs i o -> fetched E file p (inum o) o) /\ (forall n, in_use p n <-> exists i o, In (i, o) objs /\ inum o = n).
Proof. exact recovered. Qed.
Print Assumptions C81_recovery_partial.

Example C81_example : (forall i o, In (i, o) [(0, b0); (18, b1); (57, b2)] -> object_at E0 bare i o) /\ only_at bare [0; 18; 57] /\ ~ occurs (lit "xref") bare /\
  last_object [(0, b0); (18, b1); (57, b2)] 18 b1 /\ last_object [(0, b0); (18, b1); (57, b2)] 57 b2 /\ ~ last_object [(0, b0); (18, b1); (57, b2)] 0 b0.
Proof. exact C81_ex. Qed.
