(** SpecXWrite.v -- writing a document with a cross-reference stream instead of
    a table and a trailer (C101). *)
From Verif Require Import Base Num Obj Env SpecLex SpecObj SpecFilters SpecFetch SpecStream SpecXref SpecWrite.
From Coq Require Import Strings.String.

(** [xs] is the cross-reference stream; it is the last object. *)
Definition w_xdocument (D : list iobj) (xs : iobj) : bytes := w_body (D ++ [xs]) ++ w_end (zlen (w_body D)).

(** The dictionary of [xs] as it is written, its data behind the filters, and
    what the records in it say. *)
Inductive xref_lines (E : env) (xs : iobj) : dict -> bytes -> list (Z * xentry) -> Prop :=
| xl_intro : forall d s fl pl data w ps l, ival (as_written xs) = ODict d -> istream xs = Some s ->
    filters_of d fl -> parms_of d pl -> (forall r, fl <> OName (lit "Crypt") :: r) -> decoded E fl pl (Some (w_data s)) (Some data) ->
    widths_of d w -> index_of d ps -> stream_lines w ps data l true -> xref_lines E xs d data l.
(** the stream as it is read *)
Definition x_read (xs : iobj) (data : bytes) : iobj :=
  {| inum := inum xs; igen := igen xs; ival := ival (as_written xs); istream := Some data |}.

(** [d] and [data]: the dictionary and the data of the stream *)
Record lay_xdocument (E : env) (D : list iobj) (xs : iobj) (d : dict) (data : bytes) : Prop := {
  lx_objects : forall o, In o D -> lay_object o;
  lx_stream : lay_shape xs;
  lx_numbers : NoDup (map inum (D ++ [xs]));
  lx_type : entry d (lit "Type") = Some (OName (lit "XRef"));
  lx_prev : entry d (lit "Prev") = None;
  lx_size : zlen (w_xdocument D xs) < 2 ^ 53;
  (** the records have every object where it is, and no other *)
  lx_lines : exists l, xref_lines E xs d data l /\
    (forall k o, In (k, o) (w_places (zlen w_version) D) -> latest (inum o) l = Some (line_entry (k, igen o, true))) /\
    (forall n e, latest n l = Some e -> x_type e = 1 -> In n (map inum (D ++ [xs])))
}.
Record good_xdocument (E : env) (D : list iobj) (xs : iobj) (d : dict) (data : bytes) : Prop := {
  gx_lay :> lay_xdocument E D xs d data;
  gx_objects : forall o, In o D -> good_object o;
  gx_plain : entry d (lit "Encrypt") = None
}.

(** ** A stream for every list of objects *)
(** [v] in [k] bytes *)
Fixpoint w_be (k : nat) (v : Z) : bytes := match k with O => [] | S k' => w_be k' (v / 256) ++ [zb v] end.
(** the numbers of the objects with their offsets and generations *)
Definition w_entries (D : list iobj) (n : Z) : list (Z * (Z * Z)) :=
  map (fun p => (inum (snd p), (fst p, igen (snd p)))) (w_places (zlen w_version) D) ++ [(n, (zlen (w_body D), 0))].
(** the record for object [n] *)
Definition w_record (l : list (Z * (Z * Z))) (n : Z) : bytes :=
  match find (fun p => fst p =? n) l with
  | Some (_, (off, g)) => w_be 1 1 ++ w_be 5 off ++ w_be 2 g
  | None => w_be 1 0 ++ w_be 5 0 ++ w_be 2 65535
  end.
Definition w_size (D : list iobj) (n : Z) : Z := 1 + fold_right Z.max n (map inum D).
Definition w_xdata (D : list iobj) (n : Z) : bytes :=
  flat_map (w_record (w_entries D n)) (map Z.of_nat (seq 0 (Z.to_nat (w_size D n)))).
Definition w_xdict (D : list iobj) (n : Z) (tr : dict) : dict :=
  (lit "Type", OName (lit "XRef")) :: (lit "Size", ONum (num_of_Z (w_size D n))) ::
  (lit "W", OArr [ONum (num_of_Z 1); ONum (num_of_Z 5); ONum (num_of_Z 2)]) :: tr.
Definition w_xstream (D : list iobj) (n : Z) (tr : dict) : iobj :=
  {| inum := n; igen := 0; ival := ODict (w_xdict D n tr); istream := Some (w_xdata D n) |}.
(** what has to hold for it *)
Record lay_trailer (D : list iobj) (n : Z) (tr : dict) : Prop := {
  lt_objects : forall o, In o D -> lay_object o;
  lt_number : 0 < n;
  lt_numbers : NoDup (map inum D ++ [n]);
  lt_trailer : printable (ODict tr);
  lt_keys : forall k, In k (map fst tr) ->
    ~ In k [lit "Type"; lit "Size"; lit "W"; lit "Index"; lit "Prev"; lit "Filter"; lit "DecodeParms"];
  (** the dictionary fits into the read buffer (C34) *)
  lt_fits : zlen (w_obj (ODict tr)) <= 3500;
  lt_size : zlen (w_xdocument D (w_xstream D n tr)) < 10 ^ 10
}.
Record good_trailer (D : list iobj) (n : Z) (tr : dict) : Prop := {
  gt_lay :> lay_trailer D n tr;
  gt_objects : forall o, In o D -> good_object o;
  gt_plain : ~ In (lit "Encrypt") (map fst tr)
}.
