(** PropHybrid.v -- hybrid-reference files: C119. *)
From Verif Require Import Base Msg Reader Num Obj ReadObj Env Getters Crypt GetObj Xref Load SpecFetch FetchEx SpecScan SpecXref SpecRecover SpecHybrid HybridP HybridEx.
From Coq Require Import Strings.String Sorting.Permutation.

(** ** C119: the stream of a hybrid-reference file completes its table.
    Full statement: C119_hybrid_partial without its last hypothesis.  This is
    false: XRefStm is not looked at, and the table, read last, marks the objects
    of the stream as free. *)
Theorem C119_hidden_refuted : exists E fuel ord file pw p off k t s is i o e, (2 <= fuel)%nat /\ (forall m, Permutation (ord m) m) /\
  load fuel E ord file pw (new_parser file) = Ok (None, p) /\ entry (ptrailer p) (lit "Encrypt") = None /\
  last_start (last256 file) off /\ off < 2 ^ 63 /\ hybrid E file off k t s /\ only_these E file off k is /\
  object_at E file i o /\ last_start_of file is i (inum o) /\ hybrid_entry (inum o) t s e /\ x_type e = 1 /\ x_off e = i /\ x_gen e = igen o /\ ~ fetched E file p (inum o) o.
Proof. exact hidden_refuted. Qed.
Print Assumptions C119_hidden_refuted.
(** True for objects that the table does not mark as free: the search finds the
    stream, and it is read before the table. *)
Theorem C119_hybrid_partial : forall E fuel ord file pw p off k t s is, (2 <= fuel)%nat -> (forall m, Permutation (ord m) m) ->
  load fuel E ord file pw (new_parser file) = Ok (None, p) -> entry (ptrailer p) (lit "Encrypt") = None ->
  last_start (last256 file) off -> off < 2 ^ 63 -> hybrid E file off k t s -> only_these E file off k is ->
  forall i o e, object_at E file i o -> last_start_of file is i (inum o) -> hybrid_entry (inum o) t s e -> x_type e = 1 -> x_off e = i -> x_gen e = igen o ->
    (forall e', latest (inum o) (sc_entries t) = Some e' -> x_type e' = 1) -> fetched E file p (inum o) o.
Proof. exact hybrid_read. Qed.
Print Assumptions C119_hybrid_partial.
Example C119_example : load 9 E0 (fun l => l) hyb [] (new_parser hyb) = Ok (None, hyb_p) /\ entry (ptrailer hyb_p) (lit "Encrypt") = None /\
  last_start (last256 hyb) 126 /\ hybrid E0 hyb 126 54 hyb_table hyb_stream /\ only_these E0 hyb 126 54 hyb_is /\
  object_at E0 hyb 36 (str_object 3 "c") /\ last_start_of hyb hyb_is 36 3 /\ hybrid_entry 3 hyb_table hyb_stream (new_xentry 36 0 1) /\
  latest 3 (sc_entries hyb_table) = None.
Proof. exact C119_ex. Qed.
