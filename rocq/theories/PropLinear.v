(** PropLinear.v -- C118: linearized documents. *)
From Verif Require Import Base Msg Reader Num Obj ReadObj Env Getters GetObj Xref Load Extract Output Parse Errors SpecFetch SpecRead SpecOut SpecPage SpecObj SpecStream SpecWrite SpecFollow SpecUpdate SpecLinear SpecList
  LinearOutP ListRunP OutEx WriteEx LinearEx.
From Coq Require Import Strings.String Sorting.Permutation.

(** ** C118.  Load of a linearized document succeeds, although the table that
    counts is near the start of the file and leads to a later one.  Every object
    is read back as it was given to the writer, whichever of the two tables lists
    it and on whichever side of the first table it is.  All other numbers stand
    for null.  The trailer has the entries of the first trailer, and those of the
    other one for keys that the first does not have; further entries come only
    from the first object behind the first table.  No message is logged. *)
Theorem C118_linear : forall E x, good_linear x -> forall fuel ord pw, (2 <= fuel)%nat -> (forall m, Permutation (ord m) m) ->
  exists p, load fuel E ord (w_linear x) pw (new_parser (w_linear x)) = Ok (None, p) /\
    (forall o, In o (ln_objects x) -> fetched E (w_linear x) p (inum o) (as_written o)) /\
    (forall n, ~ In n (map inum (ln_objects x)) -> fetched E (w_linear x) p n {| inum := n; igen := 0; ival := OKw (lit "null"); istream := None |}) /\
    (forall k v, k <> lit "Prev" -> ln_key x k = Some v -> entry (ptrailer p) k = Some v) /\
    (forall k v, k <> lit "Prev" -> entry (ptrailer p) k = Some v -> ln_key x k = Some v \/ exists d, ln_stray x d /\ entry d k = Some v) /\
    errors_txt p = [].
Proof. exact linear_read. Qed.
Print Assumptions C118_linear.

(** Parse writes every object once ... *)
Theorem C118_raw : forall E x OD fuel S pw ops, good_linear x -> order_ok OD -> s_input S = Some (w_linear x) -> parse E OD fuel S pw = (ops, Ok PNone) ->
  exists L ts, Permutation L (map as_written (ln_objects x)) /\ Forall2 (written_object (e_fmt E)) L ts /\ content FRaw ops = List.concat (map (fun t => t ++ [x0a]) ts).
Proof. exact (fun E x OD fuel S pw ops GL => stored_raw E OD fuel S pw ops _ _ (st_linear E x pw GL)). Qed.
Print Assumptions C118_raw.

(** ... reports nothing ... *)
Theorem C118_no_errors : forall E x OD fuel pw w p, good_linear x -> order_ok OD ->
  parse_body E OD fuel (w_linear x) pw (new_parser (w_linear x)) = (w, Ok (None, p)) -> errors_txt p = [].
Proof. exact linear_errors. Qed.
Print Assumptions C118_no_errors.

(** ... and comes back. *)
Theorem C118_returns : forall E x OD S pw, good_linear x -> direct_kids (ln_objects x) -> moderate_maps (ln_objects x) -> order_ok OD -> e_verbose E <> None ->
  s_input S = Some (w_linear x) -> (forall f, s_create S f = true) ->
  exists F, forall fuel, (F <= fuel)%nat -> exists ops, parse E OD fuel S pw = (ops, Ok PNone).
Proof. exact linear_return. Qed.
Print Assumptions C118_returns.

(** The document of C90 with one more object, linearized: the catalog is behind
    the first table, and so its entries are in the trailer too. *)
Example C118_example : good_linear LX /\ direct_kids (ln_objects LX) /\ moderate_maps (ln_objects LX) /\ order_ok OD1 /\ e_verbose E1 <> None /\ s_input SL = Some (w_linear LX) /\ (forall f, s_create SL f = true) /\
  parse E1 OD1 30 SL [] = (SL_ops, Ok PNone) /\ content FURLs SL_ops = lit "http://x.example/(a" ++ [x0a] /\
  ln_key LX (lit "Size") = Some (ONum (num_of_Z 10)) /\ ln_key LX (lit "Info") = Some (ORef 7 0) /\ (exists d, ln_stray LX d /\ entry d (lit "Pages") = Some (ORef 2 0)) /\
  w_linear LX = List.concat (map (fun l => lit l ++ [x0a]) [
  "%PDF-1.7";
  "8 0 obj";
  "<< /Linearized 1 /O 3 /N 1>>";
  "endobj";
  "xref";
  "0 1";
  "0000000000 65535 f ";
  "8 1";
  "0000000009 00000 n ";
  "1 1";
  "0000000240 00000 n ";
  "3 1";
  "0000000403 00000 n ";
  "4 1";
  "0000000439 00000 n ";
  "trailer";
  "<< /Root 1 0 R /Size 10 /Prev 727>>";
  "startxref";
  "0";
  "%%EOF"]%string) ++ w_objects D0 ++ List.concat (map (fun l => lit l ++ [x0a]) [
  "xref";
  "0 1";
  "0000000000 65535 f ";
  "2 1";
  "0000000359 00000 n ";
  "9 1";
  "0000000587 00003 n ";
  "6 1";
  "0000000651 00000 n ";
  "7 1";
  "0000000672 00000 n ";
  "trailer";
  "<< /Size 8 /Info 7 0 R>>";
  "startxref";
  "53";
  "%%EOF"]%string).
Proof. exact C118_ex. Qed.
