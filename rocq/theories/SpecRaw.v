(** SpecRaw.v -- which objects raw.pdf can hold so that they can be read again,
    written without reference to the String methods or the readers. *)
From Verif Require Import Base Num Obj Env SpecLex SpecObj SpecFetch SpecOut SpecStream.
From Coq Require Import Strings.String Sorting.Permutation.

(** The same object, dictionaries in any order. *)
Inductive alike : obj -> obj -> Prop :=
| al_num : forall v, alike (ONum v) (ONum v)
| al_str : forall v, alike (OStr v) (OStr v)
| al_name : forall v, alike (OName v) (OName v)
| al_kw : forall v, alike (OKw v) (OKw v)
| al_ref : forall n g, alike (ORef n g) (ORef n g)
| al_arr : forall l l', Forall2 alike l l' -> alike (OArr l) (OArr l')
| al_dict : forall d d1 d2, Forall2 (fun x y => fst x = fst y /\ alike (snd x) (snd y)) d d1 -> Permutation d1 d2 ->
    alike (ODict d) (ODict d2).
Definition same_object (o o' : iobj) : Prop :=
  inum o' = inum o /\ igen o' = igen o /\ alike (ival o) (ival o') /\ istream o' = istream o.

(** Strings that stand for themselves between parentheses: balanced
    parentheses, neither backslash nor carriage return. *)
Inductive plain_string : bytes -> Prop :=
| ps_nil : plain_string []
| ps_char : forall b v, ~ In b (lit "\()") -> b <> x0d -> plain_string v -> plain_string (b :: v)
| ps_nested : forall v w, plain_string v -> plain_string w -> plain_string ("("%byte :: v ++ ")"%byte :: w).
(** Names that stand for themselves. *)
Definition plain_name (v : bytes) : Prop := forall b, In b v -> regular_byte b /\ b <> "#"%byte.

(** Objects made of such strings and names, integers, references and keywords. *)
Inductive printable : obj -> Prop :=
| pr_num : forall z, - 2 ^ 53 <= z <= 2 ^ 53 -> printable (ONum (num_of_Z z))
| pr_str : forall v, plain_string v -> printable (OStr v)
| pr_name : forall v, plain_name v -> printable (OName v)
| pr_kw : forall v, kw_text v -> v <> lit "R" -> printable (OKw v)
| pr_ref : forall n g, 0 <= n <= 2 ^ 53 -> 0 <= g < 2 ^ 63 -> printable (ORef n g)
| pr_arr : forall l, Forall printable l -> printable (OArr l)
| pr_dict : forall d, NoDup (map fst d) -> Forall (fun kv => plain_name (fst kv) /\ printable (snd kv)) d -> printable (ODict d).

(** fmt.Sprint writes integers in decimal notation. *)
Definition fmt_ok (fmt : num -> bytes) : Prop := forall z, - 2 ^ 53 <= z <= 2 ^ 53 -> decimal z (fmt (num_of_Z z)).

(** What a stream needs: a dictionary that names no filter and is short enough
    to leave the start of the data in the read buffer (C34), data without the
    end marker that do not end with a carriage return. *)
Definition plain_stream (fmt : num -> bytes) (o : iobj) (data : bytes) : Prop :=
  exists d, ival o = ODict d /\ ~ In (lit "Filter") (map fst d) /\ ~ In (lit "DecodeParms") (map fst d) /\
    (forall t tn tg, written fmt (ODict d) t -> decimal (inum o) tn -> decimal (igen o) tg -> zlen tn + zlen tg + zlen t <= 4000) /\
    ~ occurs (lit "endstream") data /\ forall c, data <> c ++ [x0d].

(** a cross-reference entry for an object that is not encrypted *)
Definition points (e : xentry) (g off : Z) : Prop := x_type e = 1 /\ x_gen e = g /\ x_off e = off /\ x_enc e = false.

(** In the file [raw] the text of object [n] is at [off]: with any
    cross-reference table that says so, fetching it gives [o] again. *)
Definition read_again (E : env) (raw : bytes) (o : iobj) : Prop :=
  exists off, 0 <= off < zlen raw /\ forall p e, reads raw p -> xget (inum o) (pxref p) = Some e -> points e (igen o) off ->
    exists o', fetched E raw p (inum o) o' /\ same_object o o'.
