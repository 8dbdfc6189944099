(** PropOrder.v -- C85: the order in which Go's maps are iterated.  Only
    statements; the proofs are in OrderP.v, the witnesses in OrderEx.v. *)
From Verif Require Import Base Msg Reader Num Lexer Obj Env GetObj Xref Load Tree Output Parse SpecOut SpecOrder OutEx OrderP OrderEx.
From Coq Require Import Strings.String Sorting.Permutation.

(** ** C85: the order of map iteration does not matter.
    Full statement: two runs of Parse on the same file with the same password
    return the same error and make the same writes, up to their order and the
    order of dictionary entries in raw.pdf.  This is false when a
    cross-reference section gives an offset that is negative as an int64: Seek
    fails, its error is ignored, and what is read instead depends on the object
    read before. *)
Theorem C85_order_refuted : exists E OD1 OD2 fuel S ops1 ops2, order_ok OD1 /\ order_ok OD2 /\ (2 <= fuel)%nat /\
  parse E OD1 fuel S [] = (ops1, Ok PNone) /\ parse E OD2 fuel S [] = (ops2, Ok PNone) /\ ~ same_writes (e_fmt E) (writes ops1) (writes ops2).
Proof. exact order_refuted. Qed.
Print Assumptions C85_order_refuted.

(** True when the sections give no such offset. *)
Theorem C85_order_partial : forall E OD1 OD2 fuel S pw ops1 r, (2 <= fuel)%nat -> order_ok OD1 -> order_ok OD2 ->
  (forall file x, s_input S = Some file -> sections_table fuel E file x -> offsets_inside x) ->
  parse E OD1 fuel S pw = (ops1, Ok r) ->
  exists ops2, parse E OD2 fuel S pw = (ops2, Ok r) /\ same_writes (e_fmt E) (writes ops1) (writes ops2) /\ others ops1 = others ops2.
Proof. exact parse_same. Qed.
Print Assumptions C85_order_partial.

(** File by file: the same writes to each file but raw.pdf, the same dumped
    files, as many objects in raw.pdf. *)
Theorem C85_files_partial : forall E OD1 OD2 fuel S pw ops1 r, (2 <= fuel)%nat -> order_ok OD1 -> order_ok OD2 ->
  (forall file x, s_input S = Some file -> sections_table fuel E file x -> offsets_inside x) ->
  parse E OD1 fuel S pw = (ops1, Ok r) ->
  exists ops2, parse E OD2 fuel S pw = (ops2, Ok r) /\ (forall f, f <> FRaw -> Permutation (written_to f (writes ops1)) (written_to f (writes ops2))) /\
    Permutation (dumped (writes ops1)) (dumped (writes ops2)) /\ List.length (written_to FRaw (writes ops1)) = List.length (written_to FRaw (writes ops2)).
Proof. exact files_same. Qed.
Print Assumptions C85_files_partial.

(** The same messages, for errors.txt. *)
Theorem C85_messages_partial : forall E OD1 OD2 fuel file pw w1 r p1, (2 <= fuel)%nat -> order_ok OD1 -> order_ok OD2 ->
  (forall x, sections_table fuel E file x -> offsets_inside x) ->
  parse_body E OD1 fuel file pw (new_parser file) = (w1, Ok (r, p1)) ->
  exists w2 p2, parse_body E OD2 fuel file pw (new_parser file) = (w2, Ok (r, p2)) /\ Permutation (log (prd p1)) (log (prd p2)).
Proof. exact messages_same. Qed.
Print Assumptions C85_messages_partial.

Example C85_example : order_ok ODi /\ order_ok ODr /\ (forall file x, s_input S2 = Some file -> sections_table 20 E1 file x -> offsets_inside x) /\
  (exists x, sections_table 20 E1 two x /\ xget 2 x = Some (new_xentry 31 0 1)) /\
  parse E1 ODi 20 S2 [] = (two_ops ODi, Ok PNone) /\ written_to FURLs (writes (two_ops ODi)) = [lit "u" ++ [x0a]; lit "v" ++ [x0a]] /\
  written_to FRaw (writes (two_ops ODi)) = [lit "1 0 obj" ++ [x0a] ++ lit "<</A (x)/URI (u)>>" ++ [x0a] ++ lit "endobj" ++ [x0a; x0a];
    lit "2 0 obj" ++ [x0a] ++ lit "<</URI (v)/B 1 0 R>>" ++ [x0a] ++ lit "endobj" ++ [x0a; x0a]] /\
  parse E1 ODr 20 S2 [] = (two_ops ODr, Ok PNone) /\ written_to FURLs (writes (two_ops ODr)) = [lit "v" ++ [x0a]; lit "u" ++ [x0a]] /\
  written_to FRaw (writes (two_ops ODr)) = [lit "2 0 obj" ++ [x0a] ++ lit "<</B 1 0 R/URI (v)>>" ++ [x0a] ++ lit "endobj" ++ [x0a; x0a];
    lit "1 0 obj" ++ [x0a] ++ lit "<</URI (u)/A (x)>>" ++ [x0a] ++ lit "endobj" ++ [x0a; x0a]].
Proof. exact C85_ex. Qed.
