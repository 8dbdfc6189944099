(** SpecPacked.v -- objects kept in object streams (C104). *)
From Verif Require Import Base Msg Reader Num Obj ReadObj Env GetObj SpecLex SpecObj SpecFetch.
From Coq Require Import Strings.String.

(** The head of an object stream: for each object its number and where its text
    begins, counted from the end of the head. *)
Inductive head_text : bytes -> list (Z * Z) -> Prop :=
| hd_nil : forall g, gap g -> head_text g []
| hd_cons : forall g1 a n g2 b off r l, gap g1 -> nat_text a n -> gap g2 -> g2 <> [] -> nat_text b off -> ends_token r -> head_text r l ->
    head_text (g1 ++ a ++ g2 ++ b ++ r) ((n, off) :: l).

(** The object stream with dictionary [d] and contents [data] has the object [v]
    under the number [n] at index [i]. *)
Definition packed (d : dict) (data : bytes) (i : nat) (n : Z) (v : obj) : Prop :=
  exists h first l off t r,
    In (lit "Type", OName (lit "ObjStm")) d /\ In (lit "N", ONum (num_of_Z (zlen l))) d /\ In (lit "First", ONum (num_of_Z first)) d /\
    ztake first data = h /\ zlen h = first /\ head_text h l /\ nth_error l i = Some (n, off) /\
    zdrop (first + off) data = t ++ r /\ obj_text t v /\ may_follow v r.

(** The cross-reference table places object [n] in an object stream, and there
    it is [v]. *)
Definition compressed (E : env) (file : bytes) (p : pst) (n : Z) (v : obj) : Prop :=
  exists e i o d data, xget n (pxref p) = Some e /\ x_type e = 2 /\ x_gen e = Z.of_nat i /\
    fetched E file p (x_off e) o /\ ival o = ODict d /\ istream o = Some data /\ packed d data i n v.
