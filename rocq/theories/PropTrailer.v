(** PropTrailer.v -- where the entries of the trailer come from: C93. *)
From Verif Require Import Base Msg Reader Num Obj ReadObj Env Getters Crypt GetObj Xref Load SpecFetch SpecRead SpecScan SpecXref SpecRecover SpecTrailer SpecWrite SpecUpdate TrailerP TrailerUpP WriteEx UpdateEx TrailerEx.
From Coq Require Import Strings.String Sorting.Permutation.

(** ** C93.  Full statement: every entry of the trailer that Load builds is an
    entry of a dictionary behind the keyword trailer or of a cross-reference
    stream:
    forall E fuel ord file pw r p k o, load fuel E ord file pw (new_parser file) = Ok (r, p) ->
      entry (ptrailer p) k = Some o -> exists d, trailer_dict E file d /\ entry d k = Some o.
    It is false: the end of each startxref is taken for the start of a table, so
    the dictionary of the object that follows it in an updated document becomes
    part of the trailer.  Here that object has an entry Encrypt, and the
    document, which is not encrypted, is refused: *)
Theorem C93_trailer_refuted : exists E file p k o, load 9 E (fun l => l) file [] (new_parser file) = Ok (Some EncryptionUnsupported, p) /\
  entry (ptrailer p) k = Some o /\ forall d, trailer_dict E file d -> entry d k = None.
Proof. exact C93_refuted. Qed.
Print Assumptions C93_trailer_refuted.

(** It holds if "xref" occurs only where a section starts and in the last
    startxref, and the objects and cross-reference streams found by searching
    are well-formed ones. *)
Theorem C93_trailer_partial : forall E fuel ord file pw r p is, (2 <= fuel)%nat -> (forall m, Permutation (ord m) m) -> load fuel E ord file pw (new_parser file) = Ok (r, p) ->
  (forall i, starts (fun t => t = lit "xref") file i -> (exists secs, chain E file i [] secs) \/ start_at file i) ->
  (forall off, last_start (last256 file) off -> off < 2 ^ 63 -> exists secs, chain E file off [] secs) ->
  only_at file is -> (forall k, In k is -> (exists o, object_at E file k o) \/ ((exists n, header_at file k n) /\ exists secs, chain E file k [] secs)) ->
  forall k o, entry (ptrailer p) k = Some o -> exists d, trailer_dict E file d /\ entry d k = Some o.
Proof. exact trailers_only. Qed.
Print Assumptions C93_trailer_partial.

Example C93_example : good_document D0 tr0 /\ forall E, exists is,
  (forall i, starts (fun t => t = lit "xref") (w_document D0 tr0) i -> (exists secs, chain E (w_document D0 tr0) i [] secs) \/ start_at (w_document D0 tr0) i) /\
  (forall off, last_start (last256 (w_document D0 tr0)) off -> off < 2 ^ 63 -> exists secs, chain E (w_document D0 tr0) off [] secs) /\
  only_at (w_document D0 tr0) is /\
  (forall k, In k is -> (exists o, object_at E (w_document D0 tr0) k o) \/ ((exists n, header_at (w_document D0 tr0) k n) /\ exists secs, chain E (w_document D0 tr0) k [] secs)).
Proof. exact (conj D0_good (fun E => written_settled E D0 tr0 D0_good)). Qed.

(** With updates, every entry comes from a trailer or from the dictionary of
    the object that stands right behind an older startxref, and from nowhere
    else, provided that this object has no entry Prev. *)
Theorem C93_updates_partial : forall E fuel ord file pw r p is, (2 <= fuel)%nat -> (forall m, Permutation (ord m) m) -> load fuel E ord file pw (new_parser file) = Ok (r, p) ->
  (forall i, starts (fun t => t = lit "xref") file i -> (exists secs, chain E file i [] secs) \/ exists d, old_start E file i d) ->
  (forall off, last_start (last256 file) off -> off < 2 ^ 63 -> exists secs, chain E file off [] secs) ->
  only_at file is -> (forall k, In k is -> (exists o, object_at E file k o) \/ ((exists n, header_at file k n) /\ exists secs, chain E file k [] secs)) ->
  forall k o, entry (ptrailer p) k = Some o -> exists d, (trailer_dict E file d \/ exists i, old_start E file i (Some d)) /\ entry d k = Some o.
Proof. exact trailers_or_first. Qed.
Print Assumptions C93_updates_partial.

Example C93_updates_example : good_updates RS /\ forall E, exists is,
  (forall i, starts (fun t => t = lit "xref") (w_updated RS) i -> (exists secs, chain E (w_updated RS) i [] secs) \/ exists d, old_start E (w_updated RS) i d) /\
  (forall off, last_start (last256 (w_updated RS)) off -> off < 2 ^ 63 -> exists secs, chain E (w_updated RS) off [] secs) /\
  only_at (w_updated RS) is /\
  (forall k, In k is -> (exists o, object_at E (w_updated RS) k o) \/ ((exists n, header_at (w_updated RS) k n) /\ exists secs, chain E (w_updated RS) k [] secs)).
Proof. exact (conj RS_good (fun E => updates_settled E RS RS_good)). Qed.
