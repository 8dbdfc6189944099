(** PropAgain.v -- C120: a second run on raw.pdf.  Only statements; the proofs
    are in AgainP.v, the witnesses in AgainEx.v. *)
From Verif Require Import Base Msg Reader Num Lexer Obj ReadObj Env Getters Crypt GetObj Load Output Render Parse SpecLex SpecObj SpecFetch SpecOut SpecStream SpecLook OutEx SpecRaw RawReadEx
  SpecAgain AgainP AgainEx.
From Coq Require Import Strings.String Sorting.Permutation.

(** ** C120.  Full statement: if a run succeeds, a second run on the raw.pdf of
    the first finds and prints the same objects.  This is false: streams are
    printed decoded under the names of their filters, so the second run decodes
    them again. *)
Theorem C120_twice_refuted : exists E OD fuel S S' pw ops ops' file p p' o o', fmt_ok (e_fmt E) /\ order_ok OD /\ (2 <= fuel)%nat /\
  s_input S = Some file /\ parse E OD fuel S pw = (ops, Ok PNone) /\ load fuel E (o_objects OD) file pw (new_parser file) = Ok (None, p) /\ fetched E file p 1 o /\
  s_input S' = Some (content FRaw ops) /\ parse E OD fuel S' pw = (ops', Ok PNone) /\
  load fuel E (o_objects OD) (content FRaw ops) pw (new_parser (content FRaw ops)) = Ok (None, p') /\ fetched E (content FRaw ops) p' 1 o' /\
  istream o = Some (lit "41") /\ istream o' = Some (lit "A").
Proof. exact twice_refuted. Qed.
Print Assumptions C120_twice_refuted.

(** True if the objects [L] of the document are all such that they can be read
    again and nothing in them looks like the start of an object or of a table:
    then raw.pdf can be loaded with any password, with the same objects in use,
    each the same, and every run on it prints them.  Missing: the other objects
    (C80, C81). *)
Theorem C120_again_partial : forall E OD fuel S pw ops, fmt_ok (e_fmt E) -> order_ok OD -> parse E OD fuel S pw = (ops, Ok PNone) ->
  exists file p1 L, s_input S = Some file /\ load fuel E (o_objects OD) file pw (new_parser file) = Ok (None, p1) /\
    NoDup (map inum L) /\ (forall n, in_use p1 n <-> In n (map inum L)) /\ (forall o, In o L -> exists q, kept file p1 q /\ fetched E file q (inum o) o) /\
    prints (e_fmt E) L (content FRaw ops) /\
    (Forall (again (e_fmt E)) L ->
      (forall fuel' ord pw', (2 <= fuel')%nat -> (forall m, Permutation (ord m) m) ->
        exists L' p2, load fuel' E ord (content FRaw ops) pw' (new_parser (content FRaw ops)) = Ok (None, p2) /\ Forall2 same_object L L' /\
          (forall o, In o L' -> fetched E (content FRaw ops) p2 (inum o) o) /\ (forall n, in_use p2 n <-> In n (map inum L'))) /\
      (forall OD' fuel' S' pw' ops', order_ok OD' -> (2 <= fuel')%nat -> s_input S' = Some (content FRaw ops) -> parse E OD' fuel' S' pw' = (ops', Ok PNone) ->
        exists L1 L2, Forall2 same_object L L1 /\ Permutation L1 L2 /\ prints (e_fmt E) L2 (content FRaw ops'))).
Proof. exact parsed_again. Qed.
Print Assumptions C120_again_partial.

(** two objects and both runs; in this order of iteration they change places *)
Example C120_example : fmt_ok (e_fmt E6) /\ order_ok OD1 /\ parse E6 OD1 9 S10 [] = (ops10, Ok PNone) /\ s_input S10 = Some fine /\
  load 9 E6 (o_objects OD1) fine [] (new_parser fine) = Ok (None, p10) /\ fetched E6 fine p10 1 o10 /\ fetched E6 fine p10 2 o11 /\ map fst (pxref p10) = [1; 2] /\ Forall (again (e_fmt E6)) [o10; o11] /\
  s_input S10' = Some (content FRaw ops10) /\ parse E6 OD1 9 S10' [] = (ops10', Ok PNone) /\ content FRaw ops10 = text11 ++ text10 /\ content FRaw ops10' = text10 ++ text11.
Proof. exact C120_ex. Qed.
