(** SpecRecover.v -- objects in a file and where cross-reference data or the
    search for objects leads to, written without reference to the readers. *)
From Verif Require Import Base Num Obj Reader Env SpecLex SpecObj SpecFetch SpecStream SpecScan SpecXref.
From Coq Require Import Strings.String.

Definition white (s : bytes) : Prop := s <> [] /\ forall b, In b s -> ws_byte b.
(** [header h n g]: [h] is the text "n g obj" *)
Inductive header : bytes -> Z -> Z -> Prop :=
| hd_intro : forall a n s b g s', nat_text a n -> white s -> nat_text b g -> white s' -> header (a ++ s ++ b ++ s' ++ lit "obj") n g.

(** The text behind a header [h]: an object, and the data of its stream after
    the filters.  The head of a stream has to leave the start of the data in the
    read buffer (C34), the head of a dictionary its first two bytes (C36). *)
Inductive behind (E : env) (h : bytes) : bytes -> obj -> option bytes -> Prop :=
| bh_plain : forall g1 t o g2 r, gap g1 -> obj_text t o -> gap g2 -> ends_token (g1 ++ t ++ g2 ++ lit "endobj" ++ r) ->
    may_follow o (g2 ++ lit "endobj" ++ r) -> ends_token r -> zlen (h ++ g1) < bufsize - 1 ->
    behind E h (g1 ++ t ++ g2 ++ lit "endobj" ++ r) o None
| bh_stream : forall g1 t d g2 pre eol data eol' r fl pl out, gap g1 -> obj_text t (ODict d) -> gap g2 -> no_eol pre -> ends_token (pre ++ eol) ->
    eol_before eol (data ++ eol' ++ lit "endstream" ++ r) -> ~ occurs (lit "endstream") data -> eol_after data eol' ->
    zlen (h ++ g1 ++ t ++ g2 ++ lit "stream" ++ pre ++ eol) + 9 <= bufsize ->
    filters_of d fl -> parms_of d pl -> (forall x, key_of (lit "Type") d (Some x) -> direct x) ->
    (forall r, fl <> OName (lit "Crypt") :: r) -> decoded E fl pl (Some data) out ->
    behind E h (g1 ++ t ++ g2 ++ lit "stream" ++ pre ++ eol ++ data ++ eol' ++ lit "endstream" ++ r) (ODict d) out.

(** The object [o] is at [i]. *)
Record object_at (E : env) (file : bytes) (i : Z) (o : iobj) : Prop := {
  oa_inside : 0 <= i;
  oa_number : 0 <= inum o < 2 ^ 63;
  oa_generation : 0 <= igen o < 2 ^ 63;
  oa_first : forall b r d, 0 < i -> zdrop (i - 1) file = b :: r -> ~ decdigit b d;
  oa_text : exists h r, zdrop i file = h ++ r /\ header h (inum o) (igen o) /\ behind E h r (ival o) (istream o);
  oa_not_xref : forall d, ival o = ODict d -> entry d (lit "Type") <> Some (OName (lit "XRef"))
}.
(** The header of object [n] is at [i]. *)
Definition header_at (file : bytes) (i n : Z) : Prop :=
  0 <= i /\ 0 <= n < 2 ^ 63 /\ (forall b r d, 0 < i -> zdrop (i - 1) file = b :: r -> ~ decdigit b d) /\
  exists h g r, zdrop i file = h ++ r /\ header h n g.
(** Markers occur in the file only at these positions (or at a later digit of
    the numbers there). *)
Definition only_at (file : bytes) (is : list Z) : Prop :=
  forall i, starts obj_marker file i -> exists k, In k is /\ k <= i /\ forall m, k <= m < i -> exists b r d, zdrop m file = b :: r /\ decdigit b d.
(** [o] is the last object of its number. *)
Definition last_object (objs : list (Z * iobj)) (i : Z) (o : iobj) : Prop :=
  In (i, o) objs /\ forall i' o', In (i', o') objs -> inum o' = inum o -> i' <= i.
(** [i] is where the newest of the sections [secs] has object [n] of generation
    [g]; of the texts at [is] that look like its start it is the last. *)
Definition placed (file : bytes) (is : list Z) (secs : list section) (i n g : Z) (e : xentry) : Prop :=
  In i is /\ (forall k, In k is -> header_at file k n -> k <= i) /\
  newest n secs = Some e /\ x_type e = 1 /\ x_off e = i /\ x_gen e = g.
