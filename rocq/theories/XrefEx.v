(** XrefEx.v -- witnesses for PropXref.v. *)
From Verif Require Import Base BaseP Msg Reader ReaderP Num Lexer Obj ReadObj Bits Filters Env Getters Crypt Stream GetObj Regex Xref Security Load
  SpecLex SpecLexP SpecObj SpecRead ReadEx SpecFilters SpecStream StreamP StreamObjP StreamEx SpecScan ScanP RepairP SpecXref XrefP XTermP SpecFetch FetchEx.
From Coq Require Import Strings.String Sorting.Permutation.

Ltac gaps := vm_compute; repeat (apply gap_ws; [ws |]); apply gap_nil.

(** Two tables, each the Prev of the other. *)
Definition cyc_a : bytes := lit "xref 1 2 10 0 n 20 0 n 9 0 trailer<</Prev 50/K 1>>".
Definition cyc_b : bytes := lit "xref 2 2 30 0 n 40 5 f trailer<</Prev 0/K 2/L 3>>".
Definition cyc : bytes := cyc_a ++ cyc_b.
Definition cyc_sec_a : section :=
  {| sc_entries := [(1, new_xentry 10 0 1); (2, new_xentry 20 0 1)]; sc_trailer := [(lit "Prev", ONum (num_of_Z 50)); (lit "K", ONum (num_of_Z 1))] |}.
Definition cyc_sec_b : section :=
  {| sc_entries := [(2, new_xentry 30 0 1); (3, new_xentry 40 5 0)];
     sc_trailer := [(lit "Prev", ONum (num_of_Z 0)); (lit "K", ONum (num_of_Z 2)); (lit "L", ONum (num_of_Z 3))] |}.

Lemma keys_dec : forall l : list bytes, (fix nd (l : list bytes) := match l with [] => true | k :: l' => negb (existsb (bseq k) l') && nd l' end) l = true -> NoDup l.
Proof.
  induction l as [| k l IH]; intros H; [constructor |]. apply andb_prop in H. destruct H as [H1 H2]. constructor; [| apply IH; exact H2].
  intros J. apply negb_true_iff in H1. assert (X : existsb (bseq k) l = true) by (apply existsb_exists; exists k; split; [exact J | apply bseq_refl]). congruence.
Qed.
Ltac zero_obj := apply ot_int; [apply it_plain; nat_lit | vm_compute; split; discriminate | intros _; nat_lit].
Ltac keys := apply keys_dec; reflexivity.

Lemma line_ok : forall a off s b gen s' (u : bool), nat_text a off -> gap s -> s <> [] -> nat_text b gen -> gap s' -> forall t,
  t = a ++ s ++ b ++ s' ++ (if u then lit "n" else lit "f") -> line_text t (off, gen, u).
Proof. intros. subst t. apply lt_intro; assumption. Qed.
Ltac ln a off b gen u := apply (line_ok (lit a) off (lit " ") (lit b) gen (lit " ") u); [nat_lit | gaps | discriminate | nat_lit | gaps | reflexivity].

Lemma cyc_table_a : table_text (lit "1 2 10 0 n 20 0 n 9 0 ") [(1, [(10, 0, true); (20, 0, true)]); (9, [])].
Proof.
  apply (tt_cons (lit "1") 1 (lit " ") (lit "2") (lit " ") (lit "10 0 n 20 0 n ") [(10, 0, true); (20, 0, true)] (lit "9 0 ")); try nat_lit; try gaps; try discriminate; try reflexivity.
  - apply (ls_cons (lit "10 0 n") (10, 0, true) (lit " ") (lit "20 0 n ")); [ln "10"%string 10 "0"%string 0 true | gaps | discriminate |].
    apply (ls_cons (lit "20 0 n") (20, 0, true) (lit " ") []); [ln "20"%string 20 "0"%string 0 true | gaps | discriminate | apply ls_nil].
  - apply (tt_cons (lit "9") 9 (lit " ") (lit "0") (lit " ") [] [] []); try nat_lit; try gaps; try discriminate; try reflexivity; [apply ls_nil | apply tt_nil].
Qed.
Lemma cyc_table_b : table_text (lit "2 2 30 0 n 40 5 f ") [(2, [(30, 0, true); (40, 5, false)])].
Proof.
  apply (tt_cons (lit "2") 2 (lit " ") (lit "2") (lit " ") (lit "30 0 n 40 5 f ") [(30, 0, true); (40, 5, false)] []); try nat_lit; try gaps; try discriminate; try reflexivity; [| apply tt_nil].
  apply (ls_cons (lit "30 0 n") (30, 0, true) (lit " ") (lit "40 5 f ")); [ln "30"%string 30 "0"%string 0 true | gaps | discriminate |].
  apply (ls_cons (lit "40 5 f") (40, 5, false) (lit " ") []); [ln "40"%string 40 "5"%string 5 false | gaps | discriminate | apply ls_nil].
Qed.
Lemma cyc_at_a : section_at E0 cyc 0 cyc_sec_a (Some 50).
Proof.
  apply (at_table E0 cyc 0 [] (lit " ") (lit "1 2 10 0 n 20 0 n 9 0 ") [(1, [(10, 0, true); (20, 0, true)]); (9, [])] [] (lit "<</Prev 50/K 1>>") (sc_trailer cyc_sec_a) cyc_b).
  - lia.
  - reflexivity.
  - gaps.
  - gaps.
  - discriminate.
  - exact cyc_table_a.
  - gaps.
  - apply (ot_dict (lit "/Prev 50/K 1") (sc_trailer cyc_sec_a)); [| keys]. cbn [flatten sc_trailer cyc_sec_a].
    apply (cons0 (lit "/Prev")); [nm | | right; delim_end]. apply (cons1 (lit "50")); [int_obj | | right; delim_end].
    apply (cons0 (lit "/K")); [nm | | right; delim_end]. apply (cons1 (lit "1")); [int_obj | apply nil0 | right; apply end0].
  - vm_compute. discriminate.
  - apply (pv_some _ (num_of_Z 50)). reflexivity.
Qed.
Lemma cyc_at_b : section_at E0 cyc 50 cyc_sec_b (Some 0).
Proof.
  apply (at_table E0 cyc 50 [] (lit " ") (lit "2 2 30 0 n 40 5 f ") [(2, [(30, 0, true); (40, 5, false)])] [] (lit "<</Prev 0/K 2/L 3>>") (sc_trailer cyc_sec_b) []).
  - lia.
  - reflexivity.
  - gaps.
  - gaps.
  - discriminate.
  - exact cyc_table_b.
  - gaps.
  - apply (ot_dict (lit "/Prev 0/K 2/L 3") (sc_trailer cyc_sec_b)); [| keys]. cbn [flatten sc_trailer cyc_sec_b].
    apply (cons0 (lit "/Prev")); [nm | | right; delim_end]. apply (cons1 (lit "0")); [zero_obj | | right; delim_end].
    apply (cons0 (lit "/K")); [nm | | right; delim_end]. apply (cons1 (lit "2")); [int_obj | | right; delim_end].
    apply (cons0 (lit "/L")); [nm | | right; delim_end]. apply (cons1 (lit "3")); [int_obj | apply nil0 | right; apply end0].
  - vm_compute. discriminate.
  - apply (pv_some _ (num_of_Z 0)). reflexivity.
Qed.
Lemma cyc_chain : chain E0 cyc 0 [] [cyc_sec_a; cyc_sec_b].
Proof.
  apply (ch_prev E0 cyc 0 [] cyc_sec_a 50); [intros [] | apply cyc_at_a |].
  apply (ch_prev E0 cyc 50 [0] cyc_sec_b 0); [intros [H | []]; discriminate H | apply cyc_at_b |]. apply ch_seen. right. left. reflexivity.
Qed.

Lemma C18_ex : reads cyc (new_parser cyc) /\
  (forall E n q, reads cyc q -> psh q = psh (new_parser cyc) -> exists f, GetObject f E cyc n q <> OutOfFuel) /\
  section_at E0 cyc 0 cyc_sec_a (Some 50) /\ section_at E0 cyc 50 cyc_sec_b (Some 0).
Proof.
  split; [apply open_wf |]. split; [| split; [apply cyc_at_a | apply cyc_at_b]].
  intros E n q W _. apply no_streams_fetched; [apply occurs_check; vm_compute; reflexivity | exact W].
Qed.
Lemma C18_no_ex : ~ occurs (lit "stream") cyc.
Proof. apply occurs_check; vm_compute; reflexivity. Qed.
Lemma C19_ex : chain E0 cyc 0 [] [cyc_sec_a; cyc_sec_b] /\ reads cyc (new_parser cyc) /\
  newest 2 [cyc_sec_a; cyc_sec_b] = Some (new_xentry 20 0 1) /\ newest 3 [cyc_sec_a; cyc_sec_b] = Some (new_xentry 40 5 0) /\
  newest 4 [cyc_sec_a; cyc_sec_b] = None /\ newest_key (lit "K") [cyc_sec_a; cyc_sec_b] = Some (ONum (num_of_Z 1)) /\
  newest_key (lit "L") [cyc_sec_a; cyc_sec_b] = Some (ONum (num_of_Z 3)).
Proof. split; [apply cyc_chain |]. split; [apply open_wf |]. repeat split. Qed.

Lemma C20_ex : let file := lit " 1 2 10 0 n 20 0 n 9 0 trailer" in
  wf file (open_rd file) /\ gap (lit " ") /\ table_text (lit "1 2 10 0 n 20 0 n 9 0 ") [(1, [(10, 0, true); (20, 0, true)]); (9, [])] /\ section_end (lit "trailer") /\
  rest (open_rd file) = lit " " ++ lit "1 2 10 0 n 20 0 n 9 0 " ++ lit "trailer".
Proof.
  cbv zeta. split; [apply open_wf |]. split; [gaps |]. split; [exact cyc_table_a |]. split; [| reflexivity].
  exists "t"%byte, (lit "railer"). split; [reflexivity |]. split; [intros H; apply is_ws_spec in H; discriminate |]. split; [discriminate |].
  intros d H. apply decdigit_spec in H. destruct H; discriminate.
Qed.

(** A cross-reference stream: object 4, one complete subsection and one whose
    second record is cut. *)
Definition xs_dict (w0 : Z) : dict :=
  [(lit "W", OArr [ONum (num_of_Z w0); ONum (num_of_Z 2); ONum (num_of_Z 1)]);
   (lit "Index", OArr [ONum (num_of_Z 7); ONum (num_of_Z 1); ONum (num_of_Z 20); ONum (num_of_Z 3)])].
Definition xs_data : bytes := [x01; x01; x00; x00; x02; x00; x05; x09; x01; x00].
Definition xs_file (w : string) (data : bytes) : bytes :=
  lit " 4 0 obj<</W[" ++ lit w ++ lit " 2 1]/Index[7 1 20 3]>>stream" ++ x0a :: data ++ x0a :: lit "endstream endobj".

Lemma xs_text1 : obj_text (lit "<</W[1 2 1]/Index[7 1 20 3]>>") (ODict (xs_dict 1)).
Proof.
  apply (ot_dict (lit "/W[1 2 1]/Index[7 1 20 3]") (xs_dict 1)); [| keys]. cbn [flatten xs_dict].
  apply (cons0 (lit "/W")); [nm | | right; delim_end]. apply (cons0 (lit "[1 2 1]")); [| | left; exact I].
  { apply (ot_arr (lit "1 2 1")). apply (cons0 (lit "1")); [int_obj | | right; delim_end]. apply (cons1 (lit "2")); [int_obj | | right; delim_end].
    apply (cons1 (lit "1")); [int_obj | apply nil0 | right; apply end0]. }
  apply (cons0 (lit "/Index")); [nm | | right; delim_end]. apply (cons0 (lit "[7 1 20 3]")); [| apply nil0 | left; exact I].
  apply (ot_arr (lit "7 1 20 3")). apply (cons0 (lit "7")); [int_obj | | right; delim_end]. apply (cons1 (lit "1")); [int_obj | | right; delim_end].
  apply (cons1 (lit "20")); [int_obj | | right; delim_end]. apply (cons1 (lit "3")); [int_obj | apply nil0 | right; apply end0].
Qed.
Lemma xs_text0 : obj_text (lit "<</W[0 2 1]/Index[7 1 20 3]>>") (ODict (xs_dict 0)).
Proof.
  apply (ot_dict (lit "/W[0 2 1]/Index[7 1 20 3]") (xs_dict 0)); [| keys]. cbn [flatten xs_dict].
  apply (cons0 (lit "/W")); [nm | | right; delim_end]. apply (cons0 (lit "[0 2 1]")); [| | left; exact I].
  { apply (ot_arr (lit "0 2 1")). apply (cons0 (lit "0")); [zero_obj | | right; delim_end]. apply (cons1 (lit "2")); [int_obj | | right; delim_end].
    apply (cons1 (lit "1")); [int_obj | apply nil0 | right; apply end0]. }
  apply (cons0 (lit "/Index")); [nm | | right; delim_end]. apply (cons0 (lit "[7 1 20 3]")); [| apply nil0 | left; exact I].
  apply (ot_arr (lit "7 1 20 3")). apply (cons0 (lit "7")); [int_obj | | right; delim_end]. apply (cons1 (lit "1")); [int_obj | | right; delim_end].
  apply (cons1 (lit "20")); [int_obj | | right; delim_end]. apply (cons1 (lit "3")); [int_obj | apply nil0 | right; apply end0].
Qed.
Lemma xs_index : forall w0, index_of (xs_dict w0) [(7, 1); (20, 3)].
Proof. intros w0. eapply ix_index; [reflexivity |]. apply (ip_pair (num_of_Z 7) (num_of_Z 1)). apply (ip_pair (num_of_Z 20) (num_of_Z 3)). apply ip_nil. Qed.
Ltac last_byte := let c := fresh in let H := fresh in intros c H; apply (f_equal (fun l => List.last l x00)) in H; rewrite last_last in H; vm_compute in H; discriminate H.

Lemma xs_at : forall w w0 data, obj_text (lit "<</W[" ++ lit w ++ lit " 2 1]/Index[7 1 20 3]>>") (ODict (xs_dict w0)) ->
  (List.length (lit w) <= 4)%nat -> ~ occurs (lit "endstream") data -> eol_after data [x0a] -> stream_at E0 (xs_file w data) 0 4 0 8 (xs_dict w0) data.
Proof.
  intros w w0 data T L N EA.
  apply (sa_intro E0 (xs_file w data) 0 (lit " 4 0 obj") 4 0 [] (lit "<</W[" ++ lit w ++ lit " 2 1]/Index[7 1 20 3]>>") (xs_dict w0) [] [] [x0a] data [x0a] (lit " endobj") [] [] (Some data)).
  - apply (oh_intro (lit " ") (lit "4") 4 (lit " ") (lit "0") 0 (lit " ")); first [gaps | nat_lit | discriminate].
  - gaps.
  - exact T.
  - gaps.
  - intros b [].
  - delim_end.
  - apply eb_lf.
  - exact N.
  - exact EA.
  - lia.
  - unfold xs_file, zdrop. cbn [Z.to_nat skipn]. rewrite <- ?app_assoc. reflexivity.
  - rewrite !zlen_app. unfold zlen at 4. change (zlen (lit " 4 0 obj")) with 8. change (zlen (lit "<</W[")) with 5. change (zlen (lit " 2 1]/Index[7 1 20 3]>>")) with 23.
    change (zlen (lit "stream")) with 6. change (zlen (A:=byte) []) with 0. change (zlen [x0a]) with 1. change bufsize with 4096. lia.
  - apply fo_none. intros [H | [H | []]]; discriminate H.
  - apply po_none. intros [H | [H | []]]; discriminate H.
  - apply dc_nil.
Qed.
Definition xs_lines : list (Z * xentry) := [(7, new_xentry 256 0 1); (20, new_xentry 5 9 2)].
Lemma xs_widths : widths_of (xs_dict 1) (1, 2, 1).
Proof. eapply (wo_intro _ (num_of_Z 1) (num_of_Z 2) (num_of_Z 1)); [reflexivity | | |]; vm_compute; split; discriminate. Qed.
Lemma xs_read : stream_lines (1, 2, 1) [(7, 1); (20, 3)] xs_data xs_lines false.
Proof.
  apply (sl_full _ 7 1 [(20, 3)] [x01; x01; x00; x00] [new_xentry 256 0 1] [x02; x00; x05; x09; x01; x00] [(20, new_xentry 5 9 2)] false).
    + apply (rs_cons _ [x01; x01; x00; x00] _ []); [| apply rs_nil]. apply (rt_intro _ [x01] [x01; x00] [x00]). reflexivity.
    + reflexivity.
    + apply (sl_short _ 20 3 [] [x02; x00; x05; x09] [new_xentry 5 9 2] [x01; x00]); [| reflexivity | reflexivity].
      apply (rs_cons _ [x02; x00; x05; x09] _ []); [| apply rs_nil]. apply (rt_intro _ [x02] [x00; x05] [x09]). reflexivity.
Qed.
Lemma C21_ex : stream_at E0 (xs_file "1" xs_data) 0 4 0 8 (xs_dict 1) xs_data /\ widths_of (xs_dict 1) (1, 2, 1) /\ index_of (xs_dict 1) [(7, 1); (20, 3)] /\
  stream_lines (1, 2, 1) [(7, 1); (20, 3)] xs_data xs_lines false /\ stream_says (xs_dict 1) xs_data xs_lines false /\ prev_of (xs_dict 1) None /\ reads (xs_file "1" xs_data) (new_parser (xs_file "1" xs_data)).
Proof.
  split; [| split; [| split; [| split; [| split; [| split]]]]].
  - apply xs_at; [exact xs_text1 | vm_compute; lia | apply occurs_check; vm_compute; reflexivity | apply ea_lf; last_byte].
  - exact xs_widths.
  - apply xs_index.
  - exact xs_read.
  - exact (ss_lines _ _ _ _ _ _ xs_widths (xs_index 1) xs_read).
  - apply pv_none. reflexivity.
  - apply open_wf.
Qed.

Definition xi_dict : dict := [(lit "W", OArr [ONum (num_of_Z 1); ONum (num_of_Z 2); ONum (num_of_Z 1)]);
  (lit "Index", OArr [ONum (num_of_Z 7); ONum (num_of_Z 1); ONum (num_of_Z 20); OName (lit "a"); ONum (num_of_Z 1)])].
Lemma C21_ex_rest : stream_says xi_dict xs_data [(7, new_xentry 256 0 1)] false /\
  stream_says [(lit "W", OArr [ONum (num_of_Z 1); ONum (num_of_Z 2); ONum (num_of_Z 1)]); (lit "Size", OName (lit "a"))] xs_data [] false /\
  stream_says [(lit "W", OArr [ONum (num_of_Z 1); ONum (num_of_Z 2)]); (lit "Size", ONum (num_of_Z 3))] xs_data [] false.
Proof.
  split; [| split].
  - apply (ss_index xi_dict xs_data (1, 2, 1) [(num_of_Z 7, num_of_Z 1)] (ONum (num_of_Z 20)) (OName (lit "a")) [ONum (num_of_Z 1)] _ true).
    + eapply (wo_intro _ (num_of_Z 1) (num_of_Z 2) (num_of_Z 1)); [reflexivity | | |]; vm_compute; split; discriminate.
    + reflexivity.
    + intros n g; discriminate.
    + intros n g; discriminate.
    + intros x y [_ H]; discriminate H.
    + apply (sl_full _ 7 1 [] [x01; x01; x00; x00] [new_xentry 256 0 1] [x02; x00; x05; x09; x01; x00] [] true); [| reflexivity | apply sl_nil].
      apply (rs_cons _ [x01; x01; x00; x00] _ []); [| apply rs_nil]. apply (rt_intro _ [x01] [x01; x00] [x00]). reflexivity.
  - apply ss_no_index; intros x H; vm_compute in H; try discriminate H. injection H as <-. intros n g; discriminate.
  - apply ss_no_widths.
    + intros x H; discriminate H.
    + intros x H. vm_compute in H. injection H as <-. intros n g; discriminate.
    + intros x H. vm_compute in H. injection H as <-. intros n g; discriminate.
    + intros l H x I. vm_compute in H. injection H as <-. destruct I as [<- | [<- | []]]; intros n g; discriminate.
    + intros a b c l H. vm_compute in H. discriminate H.
Qed.

(** C60: the type field is left out, all fields are there *)
Definition x0_data : bytes := [x01; x00; x00; x00; x05; x09; x00; x06; x00; x00; x07; x00].
Lemma type_refuted : exists file off n g behind d data l, stream_at E0 file off n g behind d data /\ widths_of d (0, 2, 1) /\
  index_of d [(7, 1); (20, 3)] /\ stream_lines (0, 2, 1) [(7, 1); (20, 3)] data l true /\ prev_of d None /\
  exists p' e, load_xref 9 E0 file off [] (new_parser file) = Ok (tt, p') /\ xget 7 (pxref p') = Some e /\ x_off e = 256 /\ x_type e = 0.
Proof.
  exists (xs_file "0" x0_data), 0, 4, 0, 8, (xs_dict 0), x0_data, [(7, new_xentry 256 0 0); (20, new_xentry 5 9 0); (21, new_xentry 6 0 0); (22, new_xentry 7 0 0)].
  split; [| split; [| split; [| split; [| split]]]].
  - apply xs_at; [exact xs_text0 | vm_compute; lia | apply occurs_check; vm_compute; reflexivity | apply ea_lf; last_byte].
  - eapply (wo_intro _ (num_of_Z 0) (num_of_Z 2) (num_of_Z 1)); [reflexivity | | |]; vm_compute; split; discriminate.
  - apply xs_index.
  - apply (sl_full _ 7 1 [(20, 3)] [x01; x00; x00] [new_xentry 256 0 0] [x00; x05; x09; x00; x06; x00; x00; x07; x00]
      [(20, new_xentry 5 9 0); (21, new_xentry 6 0 0); (22, new_xentry 7 0 0)] true).
    + apply (rs_cons _ [x01; x00; x00] _ []); [| apply rs_nil]. apply (rt_intro _ [] [x01; x00] [x00]). reflexivity.
    + reflexivity.
    + apply (sl_full _ 20 3 [] [x00; x05; x09; x00; x06; x00; x00; x07; x00] [new_xentry 5 9 0; new_xentry 6 0 0; new_xentry 7 0 0] [] [] true); [| reflexivity | apply sl_nil].
      apply (rs_cons _ [x00; x05; x09] _ [x00; x06; x00; x00; x07; x00]); [apply (rt_intro _ [] [x00; x05] [x09]); reflexivity |].
      apply (rs_cons _ [x00; x06; x00] _ [x00; x07; x00]); [apply (rt_intro _ [] [x00; x06] [x00]); reflexivity |].
      apply (rs_cons _ [x00; x07; x00] _ []); [apply (rt_intro _ [] [x00; x07] [x00]); reflexivity | apply rs_nil].
  - apply pv_none. reflexivity.
  - eexists. eexists. split; [vm_compute; reflexivity |]. split; [vm_compute; reflexivity |]. split; reflexivity.
Qed.
Lemma C60_ex : exists data l, stream_lines (1, 2, 0) [(7, 1)] data l true /\ l = [(7, new_xentry 256 0 1)].
Proof.
  exists [x01; x01; x00], [(7, new_xentry 256 0 1)]. split; [| reflexivity].
  apply (sl_full _ 7 1 [] [x01; x01; x00] [new_xentry 256 0 1] [] [] true); [| reflexivity | apply sl_nil].
  apply (rs_cons _ [x01; x01; x00] _ []); [apply (rt_intro _ [x01] [x01; x00] []); reflexivity | apply rs_nil].
Qed.

(** Two objects and a comment with a marker, a table for one of them, and two
    startxref lines. *)
Definition scan_doc : bytes := lit "1 0 obj(a)endobj 2%c" ++ x0a :: lit "0 obj<</Type/XRef>>endobj 1 0 obj(b)endobj xref 1 1 17 0 n trailer<<>> startxref 9 %%EOF startxref 61%%EOF".
Lemma C22_ex : reads scan_doc (new_parser scan_doc) /\ pxref (new_parser scan_doc) = [] /\
  exists p', find_objects 2 E0 scan_doc (new_parser scan_doc) =
    Ok ([(1, new_xentry 47 0 1); (2, {| x_off := 17; x_gen := 0; x_type := 1; x_enc := false; x_stm := true |})], p').
Proof. split; [apply open_wf |]. split; [reflexivity |]. eexists. vm_compute. reflexivity. Qed.
Lemma sep1 : sep [x20]. Proof. apply sep_ws. ws. Qed.
Lemma C22_complete_ex : starts obj_marker scan_doc 17 /\ exists l, scan obj_marker scan_doc 0 l.
Proof.
  split.
  - split; [vm_compute; split; discriminate |]. exists (lit "2%c" ++ x0a :: lit "0 obj"). eexists. split; [vm_compute; reflexivity |].
    apply (om_intro (lit "2") 2 (lit "%c" ++ [x0a]) (lit "0") 0 (lit " ")); [nat_lit | | nat_lit | apply sep1].
    apply sep_app; [| apply sep_ws; ws]. apply (sep_comment (lit "c")). intros b [<- | []] [H | H]; discriminate H.
  - destruct (find_objects_records E0 scan_doc (new_parser scan_doc) 2 (open_wf _) eq_refl (Nat.le_refl _)) as (l & _ & _ & _ & SC & _). exists l. exact SC.
Qed.
(** the table lists objects 1 and 7 only, and object 7 is not there *)
Definition miss_doc : bytes := lit "1 0 obj(a)endobj 2 3 obj(b)endobj xref 1 1 0 0 n 7 1 5 0 n trailer<<>>".
Lemma C23_ex : reads miss_doc (new_parser miss_doc) /\ pxref (new_parser miss_doc) = [] /\ (forall m : xmap, Permutation (rev m) m) /\
  exists p', load 9 E0 (@rev (Z * xentry)) miss_doc [] (new_parser miss_doc) = Ok (None, p') /\
    xget 2 (pxref p') = Some (new_xentry 17 3 1) /\ xget 7 (pxref p') = Some (new_xentry 5 0 1).
Proof.
  split; [apply open_wf |]. split; [reflexivity |]. split; [intros m; symmetry; apply Permutation_rev |].
  eexists. split; [vm_compute; reflexivity |]. split; vm_compute; reflexivity.
Qed.

Lemma head1 : object_head (lit "1 0 obj") 1 0.
Proof. apply (oh_intro [] (lit "1") 1 (lit " ") (lit "0") 0 (lit " ")); first [gaps | nat_lit | discriminate]. Qed.
(** C24: an entry that is right is changed, one that is wrong is kept *)
Definition right_doc : bytes := lit "1 0 obj(a)endobj 1 0 obj(b)endobj xref 1 1 0 0 n trailer<<>>".
Definition wrong_doc : bytes := lit "1 x 1 0 obj(b)endobj xref 1 1 0 0 n trailer<<>>".
Lemma right_refuted : exists file q e, head_at file (x_off e) 1 /\
  (exists p0, load_all 9 E0 file (xref_offsets file [(1, new_xentry 17 0 1)]) (new_parser file) = Ok (tt, p0) /\ xget 1 (pxref p0) = Some e) /\
  load 9 E0 (fun l => l) file [] (new_parser file) = Ok (None, q) /\ xget 1 (pxref q) <> Some e.
Proof.
  exists right_doc. eexists. exists (new_xentry 0 0 1). split.
  { exists (lit "1 0 obj"), 1, 0. eexists. split; [reflexivity |]. split; [exact head1 |]. split; [delim_end | reflexivity]. }
  split; [eexists; split; vm_compute; reflexivity |]. split; [vm_compute; reflexivity |]. vm_compute. discriminate.
Qed.
Lemma wrong_refuted : exists file q e, ~ head_at file (x_off e) 1 /\ head_at file 4 1 /\
  (exists p0, load_all 9 E0 file (xref_offsets file [(1, new_xentry 4 0 1)]) (new_parser file) = Ok (tt, p0) /\ xget 1 (pxref p0) = Some e) /\
  load 9 E0 (fun l => l) file [] (new_parser file) = Ok (None, q) /\ xget 1 (pxref q) = Some e.
Proof.
  exists wrong_doc. eexists. exists (new_xentry 0 0 1). split.
  { intros (h & k & g & r & Q & H & T & _). cbn [new_xentry x_off] in Q.
    destruct (read_object_header_text wrong_doc (open_rd wrong_doc) h k g r (0 + zlen wrong_doc) [] H T) as (s' & R & _).
    { split; [apply open_wf |]. rewrite <- Q. split; [reflexivity | split; reflexivity]. }
    apply (f_equal (fun x => snd (fst x))) in R. cbn [fst snd] in R. vm_compute in R. discriminate R. }
  split. { exists (lit "1 0 obj"), 1, 0. eexists. split; [vm_compute; reflexivity |]. split; [exact head1 |]. split; [delim_end | reflexivity]. }
  split; [eexists; split; vm_compute; reflexivity |]. split; vm_compute; reflexivity.
Qed.
Lemma C24_ex : ~ int_at scan_doc 8 1 /\ 0 <= 8 /\ reads scan_doc (new_parser scan_doc) /\ NoDup (map fst [(1, new_xentry 0 0 1); (2, new_xentry 17 0 1)]) /\
  Permutation [(2, new_xentry 17 0 1); (1, new_xentry 0 0 1)] [(1, new_xentry 0 0 1); (2, new_xentry 17 0 1)].
Proof.
  split; [| split; [lia | split; [apply open_wf | split]]].
  - intros (g & t & k & r & Q & G & T & N & V).
    destruct T as (ds & D & V' & NE). destruct t as [| c t]; [inversion D; subst; congruence |].
    assert (C : exists v, decdigit c v) by (inversion D; subst; eexists; eassumption). destruct C as (v & C).
    vm_compute in Q. destruct G as [| b g WB G | cm eol g NC EB G].
    + assert (c = "a"%byte) by (cbn [app] in Q; congruence). subst c. apply decdigit_spec in C. destruct C; discriminate.
    + assert (b = "a"%byte) by (cbn [app] in Q; congruence). subst b. apply is_ws_spec in WB. discriminate.
    + assert ("%"%byte = "a"%byte) by (cbn [app] in Q; congruence). discriminate.
  - cbn. constructor; [intros [H | []]; discriminate H | constructor; [intros [] | constructor]].
  - apply perm_swap.
Qed.
Lemma C25_ex : last_start (last256 scan_doc) 61 /\ ~ last_start (last256 scan_doc) 9.
Proof.
  split; [apply (start_offset scan_doc 61); vm_compute; reflexivity |]. intros H.
  assert (X : start_xref_offset scan_doc = Some 9) by (apply start_offset; split; [exact H | lia]). vm_compute in X. discriminate X.
Qed.
