(** HybridEx.v -- witnesses for PropHybrid.v. *)
From Verif Require Import Base BaseP Msg Reader ReaderP Num NumP Lexer Obj ReadObj Bits Filters Regex RegexP Env Getters Crypt Stream GetObj Xref Load SpecLex SpecLexP SpecObj SpecRead
  ReadEx SpecFetch FetchP FetchEx SpecStream StreamEx SpecScan SpecXref ScanP XrefP XrefEx TextEx SpecRecover RecoverP RecoverEx DocP DocEx SpecHybrid HybridP.
From Coq Require Import Strings.String Sorting.Permutation.

(** Object 1 is in the table, object 2 hidden by it, object 3 only in the stream. *)
Definition hyb_data : bytes := [x01; x12; x00; x01; x24; x00].
Definition hyb_end : bytes := lit "xref 1 2 0 0 n 0 0 f trailer<</XRefStm 54>> startxref 126 %%EOF".
Definition hyb : bytes := lit "1 0 obj(a) endobj 2 0 obj(b) endobj 3 0 obj(c) endobj " ++
  lit "9 0 obj<</Type/XRef/W[1 1 1]/Index[2 2]>>stream" ++ x0a :: hyb_data ++ x0a :: lit "endstream endobj " ++ hyb_end.
Definition hyb_p : pst := match load 9 E0 (fun l => l) hyb [] (new_parser hyb) with Ok (_, p) => p | _ => new_parser hyb end.
Definition hyb_table : section := {| sc_entries := [(1, new_xentry 0 0 1); (2, new_xentry 0 0 0)]; sc_trailer := [(lit "XRefStm", ONum (num_of_Z 54))] |}.
Definition hyb_dict : dict := [(lit "Type", OName (lit "XRef")); (lit "W", OArr [ONum (num_of_Z 1); ONum (num_of_Z 1); ONum (num_of_Z 1)]);
  (lit "Index", OArr [ONum (num_of_Z 2); ONum (num_of_Z 2)])].
Definition hyb_stream : section := {| sc_entries := [(2, new_xentry 18 0 1); (3, new_xentry 36 0 1)] ++ [(9, own_entry 61 0)]; sc_trailer := hyb_dict |}.
Definition hyb_is : list Z := [0; 18; 36; 54].
Lemma hyb_table_at : section_at E0 hyb 126 hyb_table None.
Proof.
  apply (at_table E0 hyb 126 [] (lit " ") (lit "1 2 0 0 n 0 0 f ") [(1, [(0, 0, true); (0, 0, false)])] [] (lit "<</XRefStm 54>>") (sc_trailer hyb_table) (lit " startxref 126 %%EOF"));
    [lia | vm_compute; reflexivity | gaps | gaps | discriminate | | gaps | | vm_compute; discriminate | apply pv_none; reflexivity].
  - apply (tt_cons (lit "1") 1 (lit " ") (lit "2") (lit " ") (lit "0 0 n 0 0 f ") [(0, 0, true); (0, 0, false)] []); try nat_lit; try gaps; try discriminate; try reflexivity; [| apply tt_nil].
    apply (ls_cons (lit "0 0 n") (0, 0, true) (lit " ") (lit "0 0 f ")); [ln "0"%string 0 "0"%string 0 true | gaps | discriminate |].
    apply (ls_cons (lit "0 0 f") (0, 0, false) (lit " ") []); [ln "0"%string 0 "0"%string 0 false | gaps | discriminate | apply ls_nil].
  - apply (ot_dict (lit "/XRefStm 54") (sc_trailer hyb_table)); [| keys]. cbn [flatten sc_trailer hyb_table]. one_int "/XRefStm"%string "54"%string. apply nil0.
Qed.
Lemma hyb_stream_at : stream_at E0 hyb 54 9 0 61 hyb_dict hyb_data.
Proof.
  apply (sa_intro E0 hyb 54 (lit "9 0 obj") 9 0 [] (lit "<</Type/XRef/W[1 1 1]/Index[2 2]>>") hyb_dict [] [] [x0a] hyb_data [x0a] (lit " endobj " ++ hyb_end) [] [] (Some hyb_data)).
  - apply (oh_intro [] (lit "9") 9 (lit " ") (lit "0") 0 (lit " ")); first [gaps | nat_lit | discriminate].
  - gaps.
  - apply (ot_dict (lit "/Type/XRef/W[1 1 1]/Index[2 2]") hyb_dict); [| keys]. cbn [flatten hyb_dict].
    apply (cons0 (lit "/Type")); [nm | | right; delim_end]. apply (cons0 (lit "/XRef")); [nm | | right; delim_end].
    apply (cons0 (lit "/W")); [nm | | right; delim_end]. apply (cons0 (lit "[1 1 1]")); [| | left; exact I].
    { apply (ot_arr (lit "1 1 1")). apply (cons0 (lit "1")); [int_obj | | right; delim_end]. apply (cons1 (lit "1")); [int_obj | | right; delim_end].
      apply (cons1 (lit "1")); [int_obj | apply nil0 | right; apply end0]. }
    apply (cons0 (lit "/Index")); [nm | | right; delim_end]. apply (cons0 (lit "[2 2]")); [| apply nil0 | left; exact I].
    apply (ot_arr (lit "2 2")). apply (cons0 (lit "2")); [int_obj | | right; delim_end]. apply (cons1 (lit "2")); [int_obj | apply nil0 | right; apply end0].
  - gaps.
  - intros b [].
  - delim_end.
  - apply eb_lf.
  - apply occurs_check; vm_compute; reflexivity.
  - apply ea_lf; last_byte.
  - lia.
  - vm_compute. reflexivity.
  - vm_compute. discriminate.
  - apply fo_none. intros [H | [H | [H | []]]]; discriminate H.
  - apply po_none. intros [H | [H | [H | []]]]; discriminate H.
  - apply dc_nil.
Qed.
Lemma hyb_section : section_at E0 hyb 54 hyb_stream None.
Proof.
  apply (at_stream E0 hyb 54 9 0 61 hyb_dict hyb_data (1, 1, 1) [(2, 2)] [(2, new_xentry 18 0 1); (3, new_xentry 36 0 1)] None hyb_stream_at).
  - eapply (wo_intro _ (num_of_Z 1) (num_of_Z 1) (num_of_Z 1)); [reflexivity | | |]; vm_compute; split; discriminate.
  - eapply ix_index; [reflexivity |]. apply (ip_pair (num_of_Z 2) (num_of_Z 2)). apply ip_nil.
  - apply (sl_full _ 2 2 [] hyb_data [new_xentry 18 0 1; new_xentry 36 0 1] [] [] true); [| reflexivity | apply sl_nil].
    apply (rs_cons _ [x01; x12; x00] _ [x01; x24; x00]); [apply (rt_intro _ [x01] [x12] [x00]); reflexivity |].
    apply (rs_cons _ [x01; x24; x00] _ []); [apply (rt_intro _ [x01] [x24] [x00]); reflexivity | apply rs_nil].
  - apply pv_none; reflexivity.
Qed.
Lemma hyb_hybrid : hybrid E0 hyb 126 54 hyb_table hyb_stream.
Proof.
  split; [apply hyb_table_at | exists (num_of_Z 54); split; reflexivity | apply hyb_section |].
  exists 9, 0, 61, hyb_data. split; [apply hyb_stream_at | reflexivity].
Qed.
Definition str_object (n : Z) (s : string) : iobj := {| inum := n; igen := 0; ival := OStr (lit s); istream := None |}.
Lemma hyb_1 : object_at E0 hyb 0 (str_object 1 "a").
Proof.
  split; [lia | cbn; lia | cbn; lia | lia | | intros ? Q; discriminate Q].
  exists (lit "1 0 obj"), (skipn 7 hyb). split; [vm_compute; reflexivity |]. split; [head "1"%string 1 |].
  apply (bh_plain E0 _ [] (lit "(a)") (OStr (lit "a")) (lit " ") (skipn 17 hyb)); [gaps | str_obj "a"%string | gaps | delim_end | exact I | delim_end | reflexivity].
Qed.
Lemma hyb_2 : object_at E0 hyb 18 (str_object 2 "b").
Proof.
  split; [lia | cbn; lia | cbn; lia | last_nd | | intros ? Q; discriminate Q].
  exists (lit "2 0 obj"), (skipn 25 hyb). split; [vm_compute; reflexivity |]. split; [head "2"%string 2 |].
  apply (bh_plain E0 _ [] (lit "(b)") (OStr (lit "b")) (lit " ") (skipn 35 hyb)); [gaps | str_obj "b"%string | gaps | delim_end | exact I | delim_end | reflexivity].
Qed.
Lemma hyb_3 : object_at E0 hyb 36 (str_object 3 "c").
Proof.
  split; [lia | cbn; lia | cbn; lia | last_nd | | intros ? Q; discriminate Q].
  exists (lit "3 0 obj"), (skipn 43 hyb). split; [vm_compute; reflexivity |]. split; [head "3"%string 3 |].
  apply (bh_plain E0 _ [] (lit "(c)") (OStr (lit "c")) (lit " ") (skipn 53 hyb)); [gaps | str_obj "c"%string | gaps | delim_end | exact I | delim_end | reflexivity].
Qed.
Lemma header_number : forall file i n m, header_at file i n -> header_at file i m -> n = m.
Proof.
  intros file i n m (_ & B & _ & h & g & r & Z0 & H) (_ & B' & _ & h' & g' & r' & Z0' & H').
  pose proof (number_at_det _ _ _ _ (header_number_at _ _ _ _ _ _ Z0 H) (header_number_at _ _ _ _ _ _ Z0' H')) as Q. rewrite !wrap_small in Q by assumption. exact Q.
Qed.
Lemma hyb_9 : header_at hyb 54 9.
Proof. split; [lia |]. split; [lia |]. split; [last_nd |]. exists (lit "9 0 obj"), 0, (skipn 61 hyb). split; [vm_compute; reflexivity | head "9"%string 9]. Qed.
Ltac other K := let q := fresh in
  first [pose proof (header_number _ _ _ _ K (object_header_at _ _ _ _ hyb_1)) as q | pose proof (header_number _ _ _ _ K (object_header_at _ _ _ _ hyb_2)) as q
    | pose proof (header_number _ _ _ _ K (object_header_at _ _ _ _ hyb_3)) as q | pose proof (header_number _ _ _ _ K hyb_9) as q]; cbn in q; discriminate q.
Ltac last_one H := split; [cbn; tauto |]; split; [exact H |];
  let j := fresh in let J := fresh in let K := fresh in intros j J K; cbn in J;
  repeat (destruct J as [J | J]; [subst j; first [lia | exfalso; other K] |]); destruct J.
Lemma hyb_only : only_these E0 hyb 126 54 hyb_is.
Proof.
  split.
  - intros i H. apply (proj2 (xref_positions hyb)) in H. vm_compute in H. destruct H as [<- | [<- | []]]; [left; reflexivity |]. right.
    exists (lit " "), (lit "126"), 126, (lit " " ++ "%"%byte :: lit "%EOF"). split; [vm_compute; reflexivity |]. split; [gaps |]. split; [discriminate |]. split; [nat_lit |].
    apply blank_open; [gaps |]. intros b I. cbn in I. intros [-> | ->]; intuition discriminate.
  - apply only_check; vm_compute; reflexivity.
  - intros j [<- | [<- | [<- | [<- | []]]]]; [right; eexists; apply hyb_1 | right; eexists; apply hyb_2 | right; eexists; apply hyb_3 | left; reflexivity].
  - exists 9. last_one hyb_9.
Qed.
Lemma hyb_last2 : last_start_of hyb hyb_is 18 2.
Proof. last_one (object_header_at _ _ _ _ hyb_2). Qed.
Lemma hyb_last3 : last_start_of hyb hyb_is 36 3.
Proof. last_one (object_header_at _ _ _ _ hyb_3). Qed.
Lemma hyb_load : load 9 E0 (fun l => l) hyb [] (new_parser hyb) = Ok (None, hyb_p).
Proof. vm_compute. reflexivity. Qed.
Lemma hyb_plain : entry (ptrailer hyb_p) (lit "Encrypt") = None.
Proof. vm_compute. reflexivity. Qed.
Lemma hyb_start : last_start (last256 hyb) 126.
Proof. apply start_offset; vm_compute; reflexivity. Qed.

Lemma hidden_refuted : exists E fuel ord file pw p off k t s is i o e, (2 <= fuel)%nat /\ (forall m, Permutation (ord m) m) /\
  load fuel E ord file pw (new_parser file) = Ok (None, p) /\ entry (ptrailer p) (lit "Encrypt") = None /\
  last_start (last256 file) off /\ off < 2 ^ 63 /\ hybrid E file off k t s /\ only_these E file off k is /\
  object_at E file i o /\ last_start_of file is i (inum o) /\ hybrid_entry (inum o) t s e /\ x_type e = 1 /\ x_off e = i /\ x_gen e = igen o /\ ~ fetched E file p (inum o) o.
Proof.
  exists E0, 9%nat, (fun l => l), hyb, [], hyb_p, 126, 54, hyb_table, hyb_stream, hyb_is, 18, (str_object 2 "b"), (new_xentry 18 0 1).
  split; [lia |]. split; [reflexivity |]. split; [apply hyb_load |]. split; [apply hyb_plain |]. split; [apply hyb_start |]. split; [lia |]. split; [apply hyb_hybrid |].
  split; [apply hyb_only |]. split; [apply hyb_2 |]. split; [apply hyb_last2 |]. split.
  { right. left. split; [| reflexivity]. intros e' Q. vm_compute in Q. injection Q as <-. discriminate. }
  split; [reflexivity |]. split; [reflexivity |]. split; [reflexivity |].
  intros F. assert (X : fetched E0 hyb hyb_p 2 {| inum := 2; igen := 0; ival := OKw (lit "null"); istream := None |}) by fetch9.
  pose proof (fetched_det _ _ _ _ _ _ F X) as Q. discriminate Q.
Qed.
Lemma C119_ex : load 9 E0 (fun l => l) hyb [] (new_parser hyb) = Ok (None, hyb_p) /\ entry (ptrailer hyb_p) (lit "Encrypt") = None /\
  last_start (last256 hyb) 126 /\ hybrid E0 hyb 126 54 hyb_table hyb_stream /\ only_these E0 hyb 126 54 hyb_is /\
  object_at E0 hyb 36 (str_object 3 "c") /\ last_start_of hyb hyb_is 36 3 /\ hybrid_entry 3 hyb_table hyb_stream (new_xentry 36 0 1) /\
  latest 3 (sc_entries hyb_table) = None.
Proof.
  split; [apply hyb_load |]. split; [apply hyb_plain |]. split; [apply hyb_start |]. split; [apply hyb_hybrid |]. split; [apply hyb_only |]. split; [apply hyb_3 |]. split; [apply hyb_last3 |].
  split; [| reflexivity]. right. left. split; [intros e' Q; discriminate Q | reflexivity].
Qed.
