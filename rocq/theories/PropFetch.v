(** PropFetch.v -- C13-C17, C58: GetObject, Resolve and the typed getters. *)
From Verif Require Import Base Msg Reader Num Lexer Obj ReadObj Env Getters Crypt Stream GetObj Load
  SpecRead SpecFetch FetchP TermP FetchEx.
From Coq Require Import Strings.String.

(** ** C13: reader position, unread bytes, cross-reference table, trailer and
    security handler are the same afterwards. *)
Theorem C13_resolve_stays : forall fuel E file n p o p', reads file p -> Resolve fuel E file n p = Ok (o, p') -> stays file p p'.
Proof. exact Resolve_stays. Qed.
Print Assumptions C13_resolve_stays.

Theorem C13_getters_stay : forall fuel E file, let rs := Resolve fuel E file in
  (forall d k, still file (d_object rs d k) /\ still file (d_array rs d k) /\ still file (d_bool rs d k) /\
     still file (d_dict rs d k) /\ still file (d_name rs d k) /\ still file (d_number rs d k) /\
     still file (d_int rs d k) /\ still file (d_string rs d k) /\ still file (d_stream rs d k)) /\
  (forall a i, still file (a_object rs a i) /\ still file (a_array rs a i) /\ still file (a_bool rs a i) /\
     still file (a_dict rs a i) /\ still file (a_name rs a i) /\ still file (a_number rs a i) /\
     still file (a_int rs a i) /\ still file (a_string rs a i) /\ still file (a_stream rs a i)).
Proof. exact getters_stay. Qed.
Print Assumptions C13_getters_stay.

Example C13_example : reads doc doc_state /\ pos (prd doc_state) = 2 /\
  exists o p', Resolve 9 E0 doc 6 doc_state = Ok (o, p') /\ istream o = Some (lit "A").
Proof. exact C13_ex. Qed.

(** ** C14 *)
Theorem C14_circle_is_null : forall E file p n l m, reads file p -> offsets_ok (pxref p) -> hops E file p n l m -> In m l ->
  exists f0 k, forall fuel, (f0 <= fuel)%nat -> exists p',
    Resolve fuel E file n p = Ok ({| inum := k; igen := 0; ival := OKw (lit "null"); istream := None |}, p').
Proof. exact resolve_null. Qed.
Print Assumptions C14_circle_is_null.

Theorem C14_first_value : forall E file p n l m o, reads file p -> offsets_ok (pxref p) -> hops E file p n l m ->
  fetched E file p m o -> (forall n' g, ival o <> ORef n' g) ->
  exists f0, forall fuel, (f0 <= fuel)%nat -> exists p', Resolve fuel E file n p = Ok (o, p').
Proof. exact resolve_first_value. Qed.
Print Assumptions C14_first_value.

Example C14_example : reads doc doc_state /\ offsets_ok (pxref doc_state) /\
  hops E0 doc doc_state 3 [3; 1; 2] 1 /\ In 1 [3; 1; 2] /\
  hops E0 doc doc_state 4 [4] 5 /\ exists o, fetched E0 doc doc_state 5 o /\ ival o = OStr (lit "v").
Proof. exact C14_ex. Qed.

(** ** C15: the full statement is
    [forall E file n p, reads file p -> exists fuel, GetObject fuel E file n p <> OutOfFuel];
    it is false: a stream whose Filter is the stream itself. *)
Theorem C15_get_object_refuted : exists file p, reads file p /\ forall E,
  (exists q, load 9 E (fun l => l) file [] (new_parser file) = Ok (None, q) /\ pxref q = pxref p /\ psh q = psh p) /\
  forall fuel, GetObject fuel E file 1 p = OutOfFuel.
Proof. exact get_object_refuted. Qed.
Print Assumptions C15_get_object_refuted.

(** What holds: it terminates if no stream object can be reached from itself by
    following references. *)
Theorem C15_get_object_partial : forall E file p n rank, reads file p -> offsets_ok (pxref p) ->
  (forall n v st m, stored E file p n v st -> refers m v -> (rank m <= rank n)%nat /\ (st -> (rank m < rank n)%nat)) ->
  exists f0, forall fuel, (f0 <= fuel)%nat -> GetObject fuel E file n p <> OutOfFuel.
Proof. exact get_object_ends. Qed.
Print Assumptions C15_get_object_partial.

Theorem C15_resolve_partial : forall E file p n rank, reads file p -> offsets_ok (pxref p) ->
  (forall n v st m, stored E file p n v st -> refers m v -> (rank m <= rank n)%nat /\ (st -> (rank m < rank n)%nat)) ->
  exists f0, forall fuel, (f0 <= fuel)%nat -> Resolve fuel E file n p <> OutOfFuel.
Proof. exact resolve_ends. Qed.
Print Assumptions C15_resolve_partial.

Example C15_example : reads doc doc_state /\ offsets_ok (pxref doc_state) /\
  (forall n v st m, stored E0 doc doc_state n v st -> refers m v ->
     (doc_rank m <= doc_rank n)%nat /\ (st -> (doc_rank m < doc_rank n)%nat)) /\
  exists v (st : Prop), stored E0 doc doc_state 6 v st /\ st /\ refers 7 v.
Proof. exact C15_ex. Qed.

(** ** C16 *)
Theorem C16_absent_is_null : forall fuel E file n p,
  (forall e, xget n (pxref p) = Some e -> x_type e <> 1) ->
  GetObject (S fuel) E file n p = Ok ({| inum := n; igen := 0; ival := OKw (lit "null"); istream := None |}, p).
Proof. exact get_object_absent. Qed.
Print Assumptions C16_absent_is_null.

Example C16_example : (forall e, xget 8 (pxref doc_state) = Some e -> x_type e <> 1) /\ xget 8 (pxref doc_state) <> None /\
  xget 9 (pxref doc_state) = None.
Proof. exact C16_ex. Qed.

(** ** C17 *)
Theorem C17_dictionary_getters : forall rs d k,
  reports is_object (OKw (lit "null")) rs (entry d k) (d_object rs d k) /\
  reports is_array [] rs (entry d k) (d_array rs d k) /\
  reports is_bool false rs (entry d k) (d_bool rs d k) /\
  reports is_dict [] rs (entry d k) (d_dict rs d k) /\
  reports is_name [] rs (entry d k) (d_name rs d k) /\
  reports is_number num_zero rs (entry d k) (d_number rs d k) /\
  reports is_int 0 rs (entry d k) (d_int rs d k) /\
  reports is_string [] rs (entry d k) (d_string rs d k) /\
  reports_stream rs (entry d k) (d_stream rs d k) /\
  (forall n g, d_reference d k = Some (n, g) <-> entry d k = Some (ORef n g)).
Proof. exact dictionary_getters. Qed.
Print Assumptions C17_dictionary_getters.

Theorem C17_array_getters : forall rs a i,
  reports is_object (OKw (lit "null")) rs (element a i) (a_object rs a i) /\
  reports is_array [] rs (element a i) (a_array rs a i) /\
  reports is_bool false rs (element a i) (a_bool rs a i) /\
  reports is_dict [] rs (element a i) (a_dict rs a i) /\
  reports is_name [] rs (element a i) (a_name rs a i) /\
  reports is_number num_zero rs (element a i) (a_number rs a i) /\
  reports is_int 0 rs (element a i) (a_int rs a i) /\
  reports is_string [] rs (element a i) (a_string rs a i) /\
  reports_stream rs (element a i) (a_stream rs a i).
Proof. exact array_getters. Qed.
Print Assumptions C17_array_getters.

Example C17_example : let rs := Resolve 9 E0 doc in let d := [(lit "A", ONum (num_of_Z 3)); (lit "B", ORef 4 0); (lit "C", ORef 3 0)] in
  let p := doc_state in
  looked_up rs (ONum (num_of_Z 3)) p (ONum (num_of_Z 3)) p /\
  (exists p', looked_up rs (ORef 4 0) p (OStr (lit "v")) p') /\ (exists p', looked_up rs (ORef 3 0) p (OKw (lit "null")) p') /\
  entry d (lit "B") = Some (ORef 4 0) /\ entry d (lit "D") = None /\ element [OArr []] (-1) = None.
Proof. exact C17_ex. Qed.

(** ** C58: the full statement is the partial one below without [entry_ok].  An
    offset of 20 digits wraps around to a negative one, Seek fails, and what is
    read next depends on the object fetched before. *)
Theorem C58_history_refuted : exists file p p5 p6 p1 p2 q1 q2 E a b, reads file p /\
  load 9 E (fun l => l) file [] (new_parser file) = Ok (None, p) /\
  GetObject 9 E file 5 p = Ok (a, p5) /\ GetObject 9 E file 6 p = Ok (b, p6) /\ pxref p5 = pxref p6 /\ psh p5 = psh p6 /\
  GetObject 9 E file 1 p5 = Ok (p1, q1) /\ GetObject 9 E file 1 p6 = Ok (p2, q2) /\
  ival p1 = OStr (lit "c") /\ ival p2 = OStr (lit "d").
Proof. exact fetch_refuted. Qed.
Print Assumptions C58_history_refuted.

(** Same object and same messages when the entry's offset is not negative. *)
Theorem C58_history_partial : forall fuel E file n p q, pxref p = pxref q -> psh p = psh q -> entry_ok n p ->
  match GetObject fuel E file n p, GetObject fuel E file n q with
  | Ok (o1, p'), Ok (o2, q') => o1 = o2 /\ exists ms, log (prd p') = log (prd p) ++ ms /\ log (prd q') = log (prd q) ++ ms
  | Panic, Panic => True
  | OutOfFuel, OutOfFuel => True
  | _, _ => False
  end.
Proof. exact get_object_alike. Qed.
Print Assumptions C58_history_partial.

Example C58_example : pxref doc_state = pxref (with_rd (open_rd doc) doc_state) /\ psh doc_state = psh (with_rd (open_rd doc) doc_state) /\
  entry_ok 6 doc_state /\ prd doc_state <> prd (with_rd (open_rd doc) doc_state).
Proof. exact C58_ex. Qed.
