(** SpecHybrid.v -- hybrid-reference files: a table for old readers, and a
    cross-reference stream with entries for objects hidden from them (C119). *)
From Verif Require Import Base Num Obj Env SpecLex SpecObj SpecFetch SpecStream SpecScan SpecXref SpecRecover.
From Coq Require Import Strings.String.

(** The table at [off] says [t], and that there is a stream at [k], which says
    [s]; there are no other sections. *)
Record hybrid (E : env) (file : bytes) (off k : Z) (t s : section) : Prop := {
  hy_table : section_at E file off t None;
  hy_link : exists q, entry (sc_trailer t) (lit "XRefStm") = Some (ONum q) /\ num_int q = k;
  hy_stream : section_at E file k s None;
  hy_type : exists n g b data, stream_at E file k n g b (sc_trailer s) data /\ entry (sc_trailer s) (lit "Type") = Some (OName (lit "XRef"))
}.
(** The entry of an object: that of the table if it is in use there, else that
    of the stream, if it has one. *)
Definition hybrid_entry (n : Z) (t s : section) (e : xentry) : Prop :=
  (latest n (sc_entries t) = Some e /\ x_type e = 1) \/
  ((forall e', latest n (sc_entries t) = Some e' -> x_type e' <> 1) /\ latest n (sc_entries s) = Some e) \/
  (latest n (sc_entries t) = Some e /\ x_type e <> 1 /\ latest n (sc_entries s) = None).
(** [i] is the last of the positions [is] where object [n] starts. *)
Definition last_start_of (file : bytes) (is : list Z) (i n : Z) : Prop :=
  In i is /\ header_at file i n /\ forall j, In j is -> header_at file j n -> j <= i.
(** Nothing in the file looks like a section but these two. *)
Record only_these (E : env) (file : bytes) (off k : Z) (is : list Z) : Prop := {
  ot_xref : forall i, starts (fun t => t = lit "xref") file i -> i = off \/ exists g t n r, zdrop i file = lit "xref" ++ g ++ t ++ r /\ gap g /\ g <> [] /\ nat_text t n /\ blank r;
  ot_markers : only_at file is;
  ot_objects : forall j, In j is -> j = k \/ exists o, object_at E file j o;
  ot_stream : exists n, last_start_of file is k n
}.
