(** SpecXUpdate.v -- writing a document with incremental updates, each of which
    has a cross-reference stream (C111). *)
From Verif Require Import Base Num Obj Env SpecLex SpecObj SpecFilters SpecFetch SpecStream SpecXref SpecWrite SpecXWrite SpecUpdate.
From Coq Require Import Strings.String.

(** The objects of an update, the numbers it frees, and its stream with the
    stream's dictionary and data. *)
Record xrevision := { xv_objects : list iobj; xv_freed : list Z; xv_stream : iobj; xv_dict : dict; xv_data : bytes }.
Definition xv_all (r : xrevision) : list iobj := xv_objects r ++ [xv_stream r].

(** ** The text *)
(** the offset of the stream of the revision written at [off] *)
Definition w_stream_at (off : Z) (r : xrevision) : Z := off + zlen (w_objects (xv_objects r)).
Definition w_xrevision (off : Z) (r : xrevision) : bytes := w_objects (xv_all r) ++ w_end (w_stream_at off r).
Fixpoint w_xrevisions (off : Z) (rs : list xrevision) : bytes :=
  match rs with
  | [] => []
  | r :: rs' => w_xrevision off r ++ w_xrevisions (off + zlen (w_xrevision off r)) rs'
  end.
(** the document, the oldest revision first *)
Definition w_xupdated (rs : list xrevision) : bytes := w_version ++ w_xrevisions (zlen w_version) rs.

(** ** What can be written *)
(** The revision [r] at [off], where the stream before it is at [prev]. *)
Record lay_xrevision (E : env) (off : Z) (prev : option Z) (r : xrevision) : Prop := {
  gv_objects : forall o, In o (xv_objects r) -> lay_object o;
  gv_stream : lay_shape (xv_stream r);
  gv_numbers : NoDup (xv_freed r ++ map inum (xv_all r));
  gv_type : entry (xv_dict r) (lit "Type") = Some (OName (lit "XRef"));
  gv_prev : entry (xv_dict r) (lit "Prev") = option_map (fun q => ONum (num_of_Z q)) prev;
  (** the records have every object where it is, those that are freed, and no other *)
  gv_lines : exists l, xref_lines E (xv_stream r) (xv_dict r) (xv_data r) l /\
    (forall k o, In (k, o) (w_places off (xv_objects r)) -> latest (inum o) l = Some (line_entry (k, igen o, true))) /\
    (forall n, In n (xv_freed r) -> exists e, latest n l = Some e /\ x_type e = 0) /\
    (forall n e, latest n l = Some e -> In n (xv_freed r ++ map inum (xv_all r)))
}.
Fixpoint lay_xrevisions (E : env) (off : Z) (prev : option Z) (rs : list xrevision) : Prop :=
  match rs with
  | [] => True
  | r :: rs' => lay_xrevision E off prev r /\ lay_xrevisions E (off + zlen (w_xrevision off r)) (Some (w_stream_at off r)) rs'
  end.
(** What comes first in an update is taken for a trailer (C93), so it must be an
    object that does not say something about the document. *)
Definition xharmless (r : xrevision) : Prop := exists o D, xv_objects r = o :: D /\
  forall d, ival o = ODict d -> ~ In (lit "Prev") (map fst d) /\ ~ In (lit "Encrypt") (map fst d).
Record lay_xupdates (E : env) (rs : list xrevision) : Prop := {
  gxu_some : rs <> [];
  gxu_revisions : lay_xrevisions E (zlen w_version) None rs;
  gxu_harmless : forall r, In r (tl rs) -> xharmless r;
  gxu_size : zlen (w_xupdated rs) < 2 ^ 53
}.
(** A document that is not encrypted. *)
Record good_xupdates (E : env) (rs : list xrevision) : Prop := {
  gxu_lay :> lay_xupdates E rs;
  gxu_objects : forall r o, In r rs -> In o (xv_objects r) -> good_object o;
  gxu_plain : forall r, In r rs -> entry (xv_dict r) (lit "Encrypt") = None
}.

(** ** What the document then says *)
(** the revision with its objects as they are read *)
Definition xv_read (r : xrevision) : revision :=
  {| rv_objects := map as_written (xv_objects r) ++ [x_read (xv_stream r) (xv_data r)]; rv_freed := xv_freed r; rv_trailer := xv_dict r |}.
Definition xliving (rs : list xrevision) : list iobj := living (map xv_read rs).
Definition xkey (k : bytes) (rs : list xrevision) : option obj := current_key k (map xv_read rs) None.
(** [d] is the dictionary of the first object of an update. *)
Definition xfirst_of (rs : list xrevision) (d : dict) : Prop :=
  exists r o D, In r (tl rs) /\ xv_objects r = o :: D /\ ival (as_written o) = ODict d.

(** ** A stream for every update *)
(** What an update is made of: objects, freed numbers, the number of the stream
    and what its dictionary is to say. *)
Record xplan := { pl_objects : list iobj; pl_freed : list Z; pl_number : Z; pl_trailer : dict }.
Definition p_numbers (p : xplan) : list Z := pl_freed p ++ map inum (pl_objects p) ++ [pl_number p].
(** type, offset and generation for each of these numbers *)
Definition p_fields (off : Z) (p : xplan) : list (Z * Z * Z) :=
  map (fun _ => (0, 0, 65535)) (pl_freed p) ++ map (fun q => (1, fst q, igen (snd q))) (w_places off (pl_objects p)) ++ [(1, off + zlen (w_objects (pl_objects p)), 0)].
Definition p_field (f : Z * Z * Z) : bytes := let '(t, o, g) := f in w_be 1 t ++ w_be 5 o ++ w_be 2 g.
Definition p_data (off : Z) (p : xplan) : bytes := flat_map p_field (p_fields off p).
(** each number is a pair of the index *)
Definition p_dict (prev : option Z) (p : xplan) : dict :=
  (lit "Type", OName (lit "XRef")) :: (lit "W", OArr [ONum (num_of_Z 1); ONum (num_of_Z 5); ONum (num_of_Z 2)]) ::
  (lit "Index", OArr (flat_map (fun n => [ONum (num_of_Z n); ONum (num_of_Z 1)]) (p_numbers p))) ::
  match prev with Some q => [(lit "Prev", ONum (num_of_Z q))] | None => [] end ++ pl_trailer p.
Definition p_stream (prev : option Z) (off : Z) (p : xplan) : iobj :=
  {| inum := pl_number p; igen := 0; ival := ODict (p_dict prev p); istream := Some (p_data off p) |}.
Definition p_revision (prev : option Z) (off : Z) (p : xplan) : xrevision :=
  {| xv_objects := pl_objects p; xv_freed := pl_freed p; xv_stream := p_stream prev off p;
     xv_dict := match ival (as_written (p_stream prev off p)) with ODict d => d | _ => [] end; xv_data := p_data off p |}.
Fixpoint p_revisions (off : Z) (prev : option Z) (ps : list xplan) : list xrevision :=
  match ps with
  | [] => []
  | p :: ps' => let r := p_revision prev off p in r :: p_revisions (off + zlen (w_xrevision off r)) (Some (w_stream_at off r)) ps'
  end.
Definition p_updates (ps : list xplan) : list xrevision := p_revisions (zlen w_version) None ps.
Record lay_plan (p : xplan) : Prop := {
  pg_objects : forall o, In o (pl_objects p) -> lay_object o;
  pg_freed : forall n, In n (pl_freed p) -> 0 <= n <= 2 ^ 53;
  pg_number : 0 < pl_number p <= 2 ^ 53;
  pg_numbers : NoDup (p_numbers p);
  pg_trailer : printable (ODict (pl_trailer p));
  pg_keys : forall k, In k (map fst (pl_trailer p)) ->
    ~ In k [lit "Type"; lit "W"; lit "Index"; lit "Prev"; lit "Filter"; lit "DecodeParms"];
  (** the dictionary fits into the read buffer (C34) *)
  pg_fits : zlen (w_obj (ODict (p_dict None p))) <= 3900
}.
Record lay_plans (ps : list xplan) : Prop := {
  gps_some : ps <> [];
  gps_plans : forall p, In p ps -> lay_plan p;
  gps_harmless : forall p, In p (tl ps) -> exists o D, pl_objects p = o :: D /\
    forall d, ival o = ODict d -> ~ In (lit "Prev") (map fst d) /\ ~ In (lit "Encrypt") (map fst d);
  gps_size : zlen (w_xupdated (p_updates ps)) < 10 ^ 10
}.
Record good_plans (ps : list xplan) : Prop := {
  gps_lay :> lay_plans ps;
  gps_objects : forall p o, In p ps -> In o (pl_objects p) -> good_object o;
  gps_plain : forall p, In p ps -> ~ In (lit "Encrypt") (map fst (pl_trailer p))
}.
