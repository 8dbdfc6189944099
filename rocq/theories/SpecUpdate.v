(** SpecUpdate.v -- writing a document with incremental updates: to the text
    written so far each update adds its objects, a cross-reference table, which
    may also free numbers, and a trailer that says where the previous table is
    (C95, C96). *)
From Verif Require Import Base Num Obj Env SpecLex SpecObj SpecFetch SpecStream SpecWrite.
From Coq Require Import Strings.String.

Record revision := { rv_objects : list iobj; rv_freed : list Z; rv_trailer : dict }.

(** ** The text *)
(** a subsection for a number that is freed *)
Definition w_free (n : Z) : bytes := dec n ++ x20 :: lit "1" ++ x0a :: w_line 0 65535 (lit "f").
Definition w_entries (freed : list Z) (l : list (Z * iobj)) : bytes :=
  (lit "0 1" ++ x0a :: w_line 0 65535 (lit "f")) ++ flat_map w_free freed ++ flat_map w_sub l.
Definition with_prev (prev : option Z) (d : dict) : dict :=
  match prev with Some q => d ++ [(lit "Prev", ONum (num_of_Z q))] | None => d end.
Definition w_sect (freed : list Z) (l : list (Z * iobj)) (d : dict) : bytes :=
  let t := lit "xref" ++ x0a :: w_entries freed l ++ lit "trailer" in t ++ w_break t ++ w_obj (ODict d).
(** the offset of the table of the revision written at [off] *)
Definition w_table_at (off : Z) (r : revision) : Z := off + zlen (w_objects (rv_objects r)).
Definition w_revision (off : Z) (prev : option Z) (r : revision) : bytes :=
  w_objects (rv_objects r) ++ w_sect (rv_freed r) (w_places off (rv_objects r)) (with_prev prev (rv_trailer r)) ++ w_end (w_table_at off r).
Fixpoint w_revisions (off : Z) (prev : option Z) (rs : list revision) : bytes :=
  match rs with
  | [] => []
  | r :: rs' => w_revision off prev r ++ w_revisions (off + zlen (w_revision off prev r)) (Some (w_table_at off r)) rs'
  end.
(** the document, the oldest revision first *)
Definition w_updated (rs : list revision) : bytes := w_version ++ w_revisions (zlen w_version) None rs.

(** ** What can be written *)
Record good_revision (r : revision) : Prop := {
  gr_objects : forall o, In o (rv_objects r) -> good_object o;
  gr_freed : forall n, In n (rv_freed r) -> 0 < n <= 2 ^ 53;
  gr_numbers : NoDup (rv_freed r ++ map inum (rv_objects r));
  gr_trailer : printable (ODict (rv_trailer r));
  gr_plain : ~ In (lit "Prev") (map fst (rv_trailer r)) /\ ~ In (lit "Encrypt") (map fst (rv_trailer r))
}.
(** The same without conditions on what is in streams, and with trailers that may
    say that the document is encrypted. *)
Record lay_revision (r : revision) : Prop := {
  lv_objects : forall o, In o (rv_objects r) -> lay_object o;
  lv_freed : forall n, In n (rv_freed r) -> 0 < n <= 2 ^ 53;
  lv_numbers : NoDup (rv_freed r ++ map inum (rv_objects r));
  lv_trailer : printable (ODict (rv_trailer r));
  lv_prev : ~ In (lit "Prev") (map fst (rv_trailer r))
}.
(** The first object of an update is taken for a trailer (C93), so it must not
    say something about the document. *)
Definition harmless (r : revision) : Prop := forall o D d, rv_objects r = o :: D -> ival o = ODict d ->
  ~ In (lit "Prev") (map fst d) /\ ~ In (lit "Encrypt") (map fst d).
Record good_updates (rs : list revision) : Prop := {
  gu_some : rs <> [];
  gu_revisions : forall r, In r rs -> good_revision r;
  gu_harmless : forall rs1 r rs2, rs = rs1 ++ r :: rs2 -> rs1 <> [] -> harmless r;
  gu_size : zlen (w_updated rs) < 10 ^ 10
}.

Record lay_updates (rs : list revision) : Prop := {
  lu_some : rs <> [];
  lu_revisions : forall r, In r rs -> lay_revision r;
  lu_harmless : forall rs1 r rs2, rs = rs1 ++ r :: rs2 -> rs1 <> [] -> harmless r;
  lu_size : zlen (w_updated rs) < 10 ^ 10
}.

(** ** What the document then says *)
(** the objects of the document after the update [r]; before they were [l] *)
Definition touches (r : revision) (n : Z) : bool := existsb (Z.eqb n) (rv_freed r ++ map inum (rv_objects r)).
Definition after (l : list iobj) (r : revision) : list iobj := filter (fun o => negb (touches r (inum o))) l ++ rv_objects r.
Definition living (rs : list revision) : list iobj := fold_left after rs [].
(** the value of the key [k] in the trailer; [was] before the revisions [rs] *)
Fixpoint current_key (k : bytes) (rs : list revision) (was : option obj) : option obj :=
  match rs with
  | [] => was
  | r :: rs' => current_key k rs' (match entry (rv_trailer r) k with Some v => Some v | None => was end)
  end.
(** [d] is the dictionary of the first object of an update. *)
Definition first_of (rs : list revision) (d : dict) : Prop :=
  exists rs1 r rs2 o D, rs = rs1 ++ r :: rs2 /\ rs1 <> [] /\ rv_objects r = o :: D /\ ival (as_written o) = ODict d.
