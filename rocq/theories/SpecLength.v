(** SpecLength.v -- streams whose data is measured by Length (ISO 32000-1,
    7.3.8), written without reference to the readers (C122). *)
From Verif Require Import Base Num Obj Reader Env SpecLex SpecObj SpecFetch SpecLook SpecStream SpecXref SpecRecover.
From Coq Require Import Strings.String.

(** The end-of-line marker behind the data, or none. *)
Inductive some_eol : bytes -> Prop :=
| se_none : some_eol []
| se_lf : some_eol [x0a]
| se_cr : some_eol [x0d]
| se_crlf : some_eol [x0d; x0a].
(** The filters of [d] turn [data] into [out]. *)
Definition unfiltered (E : env) (d : dict) (data : bytes) (out : option bytes) : Prop :=
  exists fl pl, filters_of d fl /\ parms_of d pl /\ (forall r, fl <> OName (lit "Crypt") :: r) /\ decoded E fl pl (Some data) out.
(** The text at [i] is that of stream [n], of generation [g], with the
    dictionary [d].  [head] goes up to the data, [raw] is the data, as many bytes
    as Length says, [eol] and "endstream" are behind it. *)
Inductive measured (E : env) (file : bytes) (p : pst) (i n g : Z) (d : dict) : bytes -> bytes -> bytes -> Prop :=
| ms_intro : forall h g1 t g2 le raw eol r, header h n g -> gap g1 -> obj_text t (ODict d) -> gap g2 -> le = [x0a] \/ le = [x0d; x0a] ->
    typed E file p is_number (entry d (lit "Length")) (num_of_Z (zlen raw)) -> some_eol eol ->
    zdrop i file = (h ++ g1 ++ t ++ g2 ++ lit "stream" ++ le) ++ raw ++ eol ++ lit "endstream" ++ r ->
    measured E file p i n g d (h ++ g1 ++ t ++ g2 ++ lit "stream" ++ le) raw eol.
(** What else makes [i] the offset of an object that is not encrypted. *)
Record usual (file : bytes) (p : pst) (i n g : Z) (d : dict) : Prop := {
  us_inside : 0 <= i;
  us_number : 0 <= n < 2 ^ 63;
  us_generation : 0 <= g < 2 ^ 63;
  us_first : forall b r k, 0 < i -> zdrop (i - 1) file = b :: r -> ~ decdigit b k;
  us_type : forall x, key_of (lit "Type") d (Some x) -> direct x;
  us_not_xref : entry d (lit "Type") <> Some (OName (lit "XRef"));
  us_plain : psh p = new_sechandler;
  us_entry : exists e, xget n (pxref p) = Some e /\ x_off e = i /\ x_gen e = g /\ x_type e = 1
}.
