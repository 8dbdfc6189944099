(** SpecWrong.v -- documents whose offsets are wrong, documents that do not begin
    at the start of the file (C114) and documents that do not end at its end
    (C115). *)
From Verif Require Import Base Num Obj SpecLex SpecObj SpecStream SpecScan SpecWrite.
From Coq Require Import Strings.String.

(** The document of SpecWrite between the bytes [front] and [back], with the
    lines [l] in its table and the number [off] behind "startxref". *)
Definition w_wrong (front : bytes) (D : list iobj) (l : list (Z * iobj)) (trailer : dict) (off : Z) (back : bytes) : bytes :=
  front ++ w_body D ++ w_xref l ++ w_obj (ODict trailer) ++ w_end off ++ back.
(** The same document with the offsets it had before bytes were put in front. *)
Definition w_behind (front : bytes) (D : list iobj) (trailer : dict) : bytes := front ++ w_document D trailer.
(** The same document with bytes behind it. *)
Definition w_before (D : list iobj) (trailer : dict) (back : bytes) : bytes := w_document D trailer ++ back.

(** Bytes behind the end of a document that are not taken for a part of it. *)
Record quiet_end (back : bytes) : Prop := {
  qe_no_object : ~ occurs (lit "obj") back;
  qe_no_table : ~ occurs (lit "xref") back;
  (** they do not begin with a number, apart from white space and comments *)
  qe_no_number : forall n, ~ int_at back 0 n;
  qe_no_dict : ~ occurs (lit "<<") back
}.

(** Neither a table nor an object is at [off]. *)
Definition no_section (file : bytes) (off : Z) : Prop :=
  (forall g r, zdrop off file = g ++ lit "xref" ++ r -> gap g -> ~ ends_token r) /\ forall n, ~ head_at file off n.
(** An offset that does not mislead: there is not just the number of the object
    there, without the rest of a header. *)
Definition harmless (file : bytes) (k n : Z) : Prop := (exists m, head_at file k m) \/ ~ int_at file k n.

(** What can be written in this way. *)
Record lay_wrong (front : bytes) (D : list iobj) (l : list (Z * iobj)) (trailer : dict) (off : Z) (back : bytes) : Prop := {
  wl_objects : forall o, In o D -> good_object o;
  wl_numbers : NoDup (map inum D);
  wl_trailer : printable (ODict trailer);
  wl_prev : ~ In (lit "Prev") (map fst trailer);
  wl_plain : ~ In (lit "Encrypt") (map fst trailer);
  (** the bytes in front look neither like an object nor like a table *)
  wl_no_object : ~ occurs (lit "obj") front;
  wl_no_table : ~ occurs (lit "xref") front;
  wl_back : quiet_end back;
  (** the table has at most one line for each object, and no others *)
  wl_lines : forall p, In p l -> In (snd p) D /\ 0 <= fst p < 10 ^ 10;
  wl_once : NoDup (map (fun p => inum (snd p)) l);
  wl_offset : 0 <= off < 10 ^ 10;
  (** the offset behind "startxref" is right or leads to nothing *)
  wl_start : off = zlen front + zlen (w_body D) \/ no_section (w_wrong front D l trailer off back) off
}.
Record wrong_document (front : bytes) (D : list iobj) (l : list (Z * iobj)) (trailer : dict) (off : Z) (back : bytes) : Prop := {
  wr_lay : lay_wrong front D l trailer off back;
  wr_harmless : forall k o, In (k, o) l -> harmless (w_wrong front D l trailer off back) k (inum o)
}.
