(** FetchEx.v -- witnesses for PropFetch.v. *)
From Verif Require Import Base BaseP Msg Reader ReaderP Num Lexer Obj ReadObj Env Getters Crypt Stream GetObj Xref Load
  SpecRead SpecFetch GetObjP FetchP TermP.
From Coq Require Import Strings.String.

(** C15: a stream object whose filter is the object itself. *)
Definition self_filter : bytes :=
  lit "1 0 obj<</Filter 1 0 R>>stream" ++ x0a :: lit "x" ++ x0a :: lit "endstream endobj".
Definition self_xref : xmap := [(1, new_xentry 0 0 1)].

Lemma self_filter_loads : forall E, exists p, load 9 E (fun l => l) self_filter [] (new_parser self_filter) = Ok (None, p) /\
  reads self_filter p /\ pxref p = self_xref /\ psh p = new_sechandler.
Proof.
  intros E. eexists. split; [vm_compute; reflexivity|]. split; [vm_compute; repeat split; discriminate|]. split; reflexivity.
Qed.

Lemma self_filter_read : forall E l b s, s = {| pos := 0; buf := 0; last := None; rest := self_filter; log := l |} -> b = true ->
  exists s2, ReadObject self_filter (new_decryptor E (if b : bool then CFNone else CFNone) 1 0) (snd (read_object_header s)) =
    Ok ((ODict [(lit "Filter", ORef 1 0)], ENone), s2) /\ fst (read_keyword s2) = lit "stream".
Proof. intros E l b s -> ->. eexists. split; vm_compute; reflexivity. Qed.

Lemma self_filter_hangs : forall fuel E p, pxref p = self_xref -> psh p = new_sechandler ->
  get_object fuel E self_filter 1 p = OutOfFuel.
Proof.
  induction fuel as [fuel IH] using lt_wf_ind. intros E p X H. destruct fuel as [|f]; [reflexivity|].
  rewrite (get_object_in_use f E self_filter 1 p (new_xentry 0 0 1)); [|rewrite X; reflexivity|reflexivity].
  rewrite get_in_use_eq, H.
  destruct (self_filter_read E (log (prd p)) true _ eq_refl eq_refl) as (s2 & R & K).
  change (seek self_filter (x_off (new_xentry 0 0 1)) (prd p)) with
    {| pos := 0; buf := 0; last := None; rest := self_filter; log := log (prd p) |}.
  cbn [x_enc x_gen new_xentry sh_string new_sechandler]. cbv iota in R. rewrite R, K.
  unfold object_end. rewrite bseq_refl.
  assert (R1 : forall q, pxref q = self_xref -> psh q = new_sechandler ->
    restoring self_filter (resolve f E self_filter 1 []) q = OutOfFuel).
  { intros q Xq Hq. unfold restoring, bind. destruct f as [|f]; [reflexivity|]. cbn [resolve zmem existsb]. unfold bind.
    rewrite IH; auto. }
  unfold bind at 1, filter_list, d_array, d_object. change (dget (lit "Filter") [(lit "Filter", ORef 1 0)]) with (Some (ORef 1 0)).
  cbv iota beta. unfold bind. rewrite R1; auto.
Qed.

(** C58: two objects, then an entry whose offset is -1 after wrapping around. *)
Definition neg_off : bytes :=
  lit "xref" ++ x0a :: lit "1 1" ++ x0a :: lit "18446744073709551615 00000 n" ++ x0a :: lit "trailer<<>>" ++ x0a ::
  lit "5 0 obj(a)endobj 6 0 obj(b)endobj " ++ repeat " "%byte (4096 - 34) ++ lit "8 0 obj(c)endobj 9 0 obj(d)endobj ".

Lemma fetch_refuted : exists file p p5 p6 p1 p2 q1 q2 E a b, reads file p /\ load 9 E (fun l => l) file [] (new_parser file) = Ok (None, p) /\
  GetObject 9 E file 5 p = Ok (a, p5) /\ GetObject 9 E file 6 p = Ok (b, p6) /\ pxref p5 = pxref p6 /\ psh p5 = psh p6 /\
  GetObject 9 E file 1 p5 = Ok (p1, q1) /\ GetObject 9 E file 1 p6 = Ok (p2, q2) /\ ival p1 = OStr (lit "c") /\ ival p2 = OStr (lit "d").
Proof.
  set (E := {| e_md5 := fun b => b; e_aes_dec := fun _ b => b; e_zlib := fun _ => None; e_lzw := fun b => (b, false);
               e_tiff_lzw := fun b => (b, false); e_fmt := fun _ => []; e_verbose := None |}).
  destruct (load 9 E (fun l => l) neg_off [] (new_parser neg_off)) as [[e p]| |] eqn:L; try (vm_compute in L; discriminate L).
  assert (Lp : match load 9 E (fun l => l) neg_off [] (new_parser neg_off) with Ok (e, p) =>
     e = None /\ reads neg_off p /\
     match GetObject 9 E neg_off 5 p, GetObject 9 E neg_off 6 p with
     | Ok (_, p5), Ok (_, p6) => alike p5 p6 /\
         match GetObject 9 E neg_off 1 p5, GetObject 9 E neg_off 1 p6 with
         | Ok (c, _), Ok (d, _) => ival c = OStr (lit "c") /\ ival d = OStr (lit "d")
         | _, _ => False end
     | _, _ => False end | _ => False end).
  { vm_compute. repeat split; discriminate. }
  rewrite L in Lp. destruct Lp as (-> & W & Lp).
  destruct (GetObject 9 E neg_off 5 p) as [[a p5]| |] eqn:L5; try contradiction.
  destruct (GetObject 9 E neg_off 6 p) as [[b p6]| |] eqn:L6; try contradiction. destruct Lp as (A & Lp).
  destruct (GetObject 9 E neg_off 1 p5) as [[c q1]| |] eqn:L1; try contradiction.
  destruct (GetObject 9 E neg_off 1 p6) as [[d q2]| |] eqn:L2; try contradiction.
  exists neg_off, p, p5, p6, c, d, q1, q2, E, a, b. destruct A. tauto.
Qed.

Lemma get_object_refuted : exists file p, reads file p /\ forall E,
  (exists q, load 9 E (fun l => l) file [] (new_parser file) = Ok (None, q) /\ pxref q = pxref p /\ psh q = psh p) /\
  forall fuel, GetObject fuel E file 1 p = OutOfFuel.
Proof.
  set (p := with_xref self_xref (new_parser self_filter)). exists self_filter, p.
  split; [vm_compute; repeat split; discriminate|]. intros E. split.
  - destruct (self_filter_loads E) as (q & L & _ & X & H). exists q. rewrite X, H. auto.
  - intros fuel. apply self_filter_hangs; reflexivity.
Qed.

(** A file with a chain 4 -> 5 -> (v), a circle 1 -> 2 -> 1 with a tail 3 -> 1,
    and a stream 6 whose filter is held by object 7. *)
Definition doc : bytes :=
  lit "1 0 obj 2 0 R endobj 2 0 obj 1 0 R endobj 3 0 obj 1 0 R endobj 4 0 obj 5 0 R endobj 5 0 obj (v) endobj " ++
  lit "6 0 obj<</Filter 7 0 R>>stream" ++ x0a :: lit "41>" ++ x0a :: lit "endstream endobj 7 0 obj/ASCIIHexDecode endobj".
Definition doc_xref : xmap :=
  [(1, new_xentry 0 0 1); (2, new_xentry 21 0 1); (3, new_xentry 42 0 1); (4, new_xentry 63 0 1); (5, new_xentry 84 0 1);
   (6, new_xentry 103 0 1); (7, new_xentry 155 0 1); (8, new_xentry 3 0 2)].
Definition doc_state : pst := with_xref doc_xref (with_rd (consume_ws (snd (read_byte (open_rd doc)))) (new_parser doc)).
Definition E0 : env :=
  {| e_md5 := fun b => b; e_aes_dec := fun _ b => b; e_zlib := fun _ => None; e_lzw := fun b => (b, false);
     e_tiff_lzw := fun b => (b, false); e_fmt := fun _ => []; e_verbose := None |}.

Lemma C13_ex : reads doc doc_state /\ pos (prd doc_state) = 2 /\
  exists o p', Resolve 9 E0 doc 6 doc_state = Ok (o, p') /\ istream o = Some (lit "A").
Proof.
  split; [vm_compute; repeat split; discriminate|]. split; [reflexivity|].
  eexists. eexists. split; vm_compute; reflexivity.
Qed.

Ltac fetch9 := exists 9%nat; eexists; vm_compute; reflexivity.
Lemma doc_offsets : offsets_ok (pxref doc_state).
Proof.
  intros n e H T. cbn in H. unfold xget in H. cbn [mget] in H.
  repeat match type of H with (if ?c then _ else _) = _ => destruct c; [injection H as <-; cbn; lia|] end. discriminate.
Qed.
Lemma C14_ex : reads doc doc_state /\ offsets_ok (pxref doc_state) /\
  hops E0 doc doc_state 3 [3; 1; 2] 1 /\ In 1 [3; 1; 2] /\
  hops E0 doc doc_state 4 [4] 5 /\ exists o, fetched E0 doc doc_state 5 o /\ ival o = OStr (lit "v").
Proof.
  split; [apply C13_ex|]. split; [apply doc_offsets|].
  assert (H : forall n m, (n, m) = (3, 1) \/ (n, m) = (1, 2) \/ (n, m) = (2, 1) \/ (n, m) = (4, 5) ->
    exists o, fetched E0 doc doc_state n o /\ ival o = ORef m 0).
  { intros n m [H|[H|[H|H]]]; injection H as -> ->; eexists; (split; [fetch9|reflexivity]). }
  destruct (H 3 1) as (o3 & F3 & V3); [auto|]. destruct (H 1 2) as (o1 & F1 & V1); [auto|].
  destruct (H 2 1) as (o2 & F2 & V2); [auto|]. destruct (H 4 5) as (o4 & F4 & V4); [auto|].
  split; [|split; [|split]].
  - eapply hop_next; [exact F3|exact V3|]. eapply hop_next; [exact F1|exact V1|]. eapply hop_next; [exact F2|exact V2|]. apply hop_here.
  - right; left; reflexivity.
  - eapply hop_next; [exact F4|exact V4|]. apply hop_here.
  - eexists. split; [fetch9|reflexivity].
Qed.

(** the objects of [doc] never refer back from a stream to itself *)
Lemma doc_stored : forall n v st, stored E0 doc doc_state n v st ->
  (In n [1; 2; 3; 4; 5; 7] /\ ~ st /\ In v [ORef 2 0; ORef 1 0; ORef 5 0; OStr (lit "v"); OName (lit "ASCIIHexDecode")]) \/
  (n = 6 /\ v = ODict [(lit "Filter", ORef 7 0)]).
Proof.
  intros n v st (e & er & s & X & T & R & K). unfold xget in X. cbn [doc_state pxref with_xref doc_xref mget] in X.
  assert (Hst : forall kw : bytes, fst (read_keyword s) = kw -> bseq kw (lit "stream") = false -> ~ st).
  { intros kw <- N H. apply K in H. rewrite H in N. discriminate. }
  repeat match type of X with (if ?c then _ else _) = _ => let Q := fresh in destruct c eqn:Q; [apply Z.eqb_eq in Q; subst n; injection X as <-;
    try discriminate T; vm_compute in R; injection R; intros; subst; clear R; clear T;
    try (right; split; reflexivity); (left; split; [cbn; auto 9|]; split; [eapply Hst; vm_compute; reflexivity|cbn; auto 9])|] end.
  discriminate.
Qed.
Definition doc_rank (n : Z) : nat := if n =? 6 then 1%nat else 0%nat.
Lemma C15_ex : reads doc doc_state /\ offsets_ok (pxref doc_state) /\
  (forall n v st m, stored E0 doc doc_state n v st -> refers m v ->
     (doc_rank m <= doc_rank n)%nat /\ (st -> (doc_rank m < doc_rank n)%nat)) /\
  exists v (st : Prop), stored E0 doc doc_state 6 v st /\ st /\ refers 7 v.
Proof.
  split; [apply C13_ex|]. split; [apply doc_offsets|]. split.
  - intros n v st m S R. destruct (doc_stored _ _ _ S) as [(I & N & V)|(-> & ->)].
    + split; [|tauto]. assert (doc_rank m = 0%nat); [|rewrite H; apply Nat.le_0_l].
      cbn in V. destruct V as [<-|[<-|[<-|[<-|[<-|[]]]]]]; inversion R; reflexivity.
    + inversion R as [| |k o d I R']. subst. destruct I as [I|[]]. injection I as <- <-. inversion R'. subst. split; [|intros _]; cbn; auto.
  - exists (ODict [(lit "Filter", ORef 7 0)]), True. split; [|split; [exact I|]].
    + exists (new_xentry 103 0 1). eexists. eexists. split; [reflexivity|]. split; [reflexivity|]. split; [vm_compute; reflexivity|].
      split; [vm_compute; reflexivity|auto].
    + eapply rf_dict; [left; reflexivity|apply rf_ref].
Qed.

Lemma C16_ex : (forall e, xget 8 (pxref doc_state) = Some e -> x_type e <> 1) /\ xget 8 (pxref doc_state) <> None /\
  xget 9 (pxref doc_state) = None.
Proof. split; [intros e H; injection H as <-; discriminate|]. split; [discriminate|reflexivity]. Qed.

Lemma C17_ex : let rs := Resolve 9 E0 doc in let d := [(lit "A", ONum (num_of_Z 3)); (lit "B", ORef 4 0); (lit "C", ORef 3 0)] in
  let p := doc_state in
  looked_up rs (ONum (num_of_Z 3)) p (ONum (num_of_Z 3)) p /\
  (exists p', looked_up rs (ORef 4 0) p (OStr (lit "v")) p') /\ (exists p', looked_up rs (ORef 3 0) p (OKw (lit "null")) p') /\
  entry d (lit "B") = Some (ORef 4 0) /\ entry d (lit "D") = None /\ element [OArr []] (-1) = None.
Proof.
  cbv zeta. split; [split; reflexivity|]. split; [|split]; [| |split; [reflexivity|split; reflexivity]].
  - eexists. eexists. split; vm_compute; reflexivity.
  - eexists. eexists. split; vm_compute; reflexivity.
Qed.

Lemma C58_ex : pxref doc_state = pxref (with_rd (open_rd doc) doc_state) /\ psh doc_state = psh (with_rd (open_rd doc) doc_state) /\ entry_ok 6 doc_state /\
  prd doc_state <> prd (with_rd (open_rd doc) doc_state).
Proof.
  split; [reflexivity|]. split; [reflexivity|]. split; [intros e H _; injection H as <-; discriminate|]. vm_compute. discriminate.
Qed.
