(** StreamEx.v -- witnesses for PropStream.v. *)
From Verif Require Import Base BaseP Msg Reader ReaderP Num Lexer Obj ReadObj Bits Filters Env Getters Crypt Stream GetObj
  SpecLex SpecLexP SpecObj SpecRead ReadEx SpecFetch FetchEx SpecStream StreamP StreamObjP.
From Coq Require Import Strings.String.

(** an object whose data starts six bytes before the end of the buffer *)
Definition split_tail : bytes := lit "stream" ++ x0a :: lit "abcdefghij" ++ x0a :: lit "endstream endobj".
Definition split_file : bytes := lit "1 0 obj<<" ++ repeat " "%byte (4096 - 24) ++ lit ">>" ++ split_tail.
Definition split_state : pst := with_xref [(1, new_xentry 0 0 1)] (new_parser split_file).

Lemma split_refuted : forall E, exists p',
  GetObject 9 E split_file 1 split_state =
    Ok ({| inum := 1; igen := 0; ival := ODict [];
           istream := Some (lit "abcdefghij" ++ x0a :: lit "endstream endobj") |}, p') /\
  log (prd p') = [UnclosedStream].
Proof. intros E. eexists. split; vm_compute; reflexivity. Qed.

Ltac wsb := apply is_ws_spec; reflexivity.
Lemma gap_spaces : forall n, gap (repeat " "%byte n).
Proof. induction n; [apply gap_nil|apply gap_ws; [wsb|auto]]. Qed.
Ltac noteol := let b := fresh in let H := fresh in intros b H; simpl in H; repeat destruct H as [<-|H]; try contradiction; split; discriminate.
Lemma occurs_dec : forall m t, (forall k, (k <= List.length t)%nat -> bseq (firstn (List.length m) (skipn k t)) m = false) -> ~ occurs m t.
Proof.
  intros m t H (a & b & ->). specialize (H (List.length a)). rewrite app_length in H. specialize (H ltac:(lia)).
  rewrite skipn_app, skipn_all, Nat.sub_diag in H. cbn [app skipn] in H. rewrite firstn_app, firstn_all, Nat.sub_diag, firstn_O, app_nil_r in H.
  rewrite bseq_refl in H. discriminate.
Qed.
Lemma occurs_check : forall m t, forallb (fun k => negb (bseq (firstn (List.length m) (skipn k t)) m)) (seq 0 (S (List.length t))) = true -> ~ occurs m t.
Proof.
  intros m t H. apply occurs_dec. intros k L. rewrite forallb_forall in H. specialize (H k). rewrite in_seq in H.
  specialize (H ltac:(lia)). destruct (bseq _ _); [discriminate|reflexivity].
Qed.

Lemma stream_refuted : exists file p head g1 t d data r, reads file p /\ offsets_ok (pxref p) /\
  xget 1 (pxref p) = Some (new_xentry 0 0 1) /\
  object_head head 1 0 /\ gap g1 /\ obj_text t (ODict d) /\
  file = head ++ g1 ++ t ++ lit "stream" ++ x0a :: data ++ x0a :: lit "endstream" ++ r /\
  ~ occurs (lit "endstream") data /\ eol_after data [x0a] /\
  forall E, exists p', GetObject 9 E file 1 p =
    Ok ({| inum := 1; igen := 0; ival := ODict d; istream := Some (data ++ x0a :: lit "endstream" ++ r) |}, p') /\
    log (prd p') = [UnclosedStream].
Proof.
  exists split_file, split_state, (lit "1 0 obj"), [], (lit "<<" ++ repeat " "%byte (4096 - 24) ++ lit ">>"), [], (lit "abcdefghij"), (lit " endobj").
  split; [vm_compute; repeat split; discriminate|]. split.
  { intros n e H T. unfold xget in H. cbn [split_state pxref with_xref mget] in H. destruct (n =? 1); [|discriminate].
    assert (e = new_xentry 0 0 1) by congruence. subst e. cbn. lia. }
  split; [reflexivity|]. split.
  { apply (oh_intro [] (lit "1") 1 (lit " ") (lit "0") 0 (lit " ")).
    - apply gap_nil.
    - nat_lit.
    - apply gap_ws; [wsb|apply gap_nil].
    - discriminate.
    - nat_lit.
    - apply gap_ws; [wsb|apply gap_nil]. }
  split; [apply gap_nil|]. split.
  { apply (ot_dict (repeat " "%byte (4096 - 24)) []); [|constructor]. apply it_nil. apply gap_spaces. }
  split; [reflexivity|]. split; [apply occurs_check; vm_compute; reflexivity|]. split.
  { apply ea_lf. intros c H. assert (List.last (lit "abcdefghij") x00 = List.last (c ++ [x0d]) x00) by congruence. rewrite last_last in H0. discriminate. }
  intros E. apply split_refuted.
Qed.

(** the same, as two reader states at the same place *)
Definition buf_file : bytes := repeat " "%byte 4083 ++ split_tail.
Lemma buffering_refuted : exists file s1 s2, wf file s1 /\ wf file s2 /\
  s1 = snd (read_keyword (open_rd file)) /\ s2 = seek file (pos s1) s1 /\ pos s1 = pos s2 /\ rest s1 = rest s2 /\
  fst (read_stream_raw s1) = Some (lit "abcdefghij" ++ x0a :: lit "endstream endobj") /\
  fst (read_stream_raw s2) = Some (lit "abcdefghij").
Proof.
  exists buf_file, (snd (read_keyword (open_rd buf_file))). eexists.
  assert (W : wf buf_file (snd (read_keyword (open_rd buf_file)))).
  { destruct (LexerP.read_keyword_sim _ _ _ _ _ (St_intro _ _ (open_wf buf_file))) as (s' & -> & S). apply S. }
  split; [exact W|]. split; [|split; [reflexivity|split; [reflexivity|]]]; [apply seek_wf; exact W|].
  split; [vm_compute; reflexivity|]. split; [vm_compute; reflexivity|]. split; vm_compute; reflexivity.
Qed.

Lemma C34_ex : exists file s pre eol data eol' r, wf file s /\ no_eol pre /\ rest s = pre ++ eol ++ data ++ eol' ++ lit "endstream" ++ r /\
  eol_before eol (data ++ eol' ++ lit "endstream" ++ r) /\ ~ occurs (lit "endstream") data /\ eol_after data eol' /\
  buffered (zlen (pre ++ eol) + 9) s /\ data = lit "a endstrea" ++ [x0d; x0a].
Proof.
  exists (lit "  " ++ [x0d; x0a] ++ (lit "a endstrea" ++ [x0d; x0a]) ++ [x0d; x0a] ++ lit "endstream" ++ lit " endobj").
  exists (open_rd (lit "  " ++ [x0d; x0a] ++ (lit "a endstrea" ++ [x0d; x0a]) ++ [x0d; x0a] ++ lit "endstream" ++ lit " endobj")).
  exists (lit "  "), [x0d; x0a], (lit "a endstrea" ++ [x0d; x0a]), [x0d; x0a], (lit " endobj").
  split; [apply open_wf|]. split; [noteol|]. split; [reflexivity|]. split; [apply eb_crlf|].
  split; [apply occurs_check; vm_compute; reflexivity|]. split; [apply ea_crlf|].
  split; [right; split; [reflexivity|vm_compute; discriminate]|reflexivity].
Qed.

Lemma C34_open_ex : exists file s data, wf file s /\ rest s = [] ++ [x0a] ++ data /\ eol_before [x0a] data /\ data <> [] /\
  ~ occurs (lit "endstream") data /\ buffered (zlen ([] ++ [x0a]) + 9) s.
Proof.
  exists (x0a :: lit "ab endstrea"), (open_rd (x0a :: lit "ab endstrea")), (lit "ab endstrea").
  split; [apply open_wf|]. split; [reflexivity|]. split; [apply eb_lf|]. split; [discriminate|].
  split; [apply occurs_check; vm_compute; reflexivity|right; split; [reflexivity|vm_compute; discriminate]].
Qed.

Lemma C35_ex : exists file s1 s2, wf file s1 /\ wf file s2 /\ rest s1 = rest s2 /\ buf s1 <> buf s2 /\
  (forall k, stream_head (rest s1) k -> buffered (k + 9) s1 /\ buffered (k + 9) s2) /\ stream_head (rest s1) 1.
Proof.
  set (file := lit "x" ++ x0a :: lit "abcdefghijklm"). exists file, (snd (read_byte (open_rd file))), (seek file 1 (open_rd file)).
  split; [apply read_byte_wf, open_wf|]. split; [apply seek_wf, open_wf|]. split; [reflexivity|]. split; [discriminate|].
  assert (H : stream_head (rest (snd (read_byte (open_rd file)))) 1).
  { exists [], [x0a], (lit "abcdefghijklm"). split; [reflexivity|]. split; [intros b []|]. split; [apply eb_lf|reflexivity]. }
  split; [|exact H]. intros k Hk. rewrite (stream_head_unique _ _ _ Hk H).
  split; [left; vm_compute; discriminate|right; split; [reflexivity|vm_compute; discriminate]].
Qed.

(** a stream with two filters, the first of them a Crypt filter *)
Definition two_filters : dict :=
  [(lit "Filter", OArr [OName (lit "Crypt"); OName (lit "ASCIIHexDecode"); OName (lit "Foo"); OName (lit "RunLengthDecode")]);
   (lit "DecodeParms", OArr [ODict [(lit "Name", OName (lit "CF1"))]])].
Definition two_text : bytes := lit "<</Filter[/Crypt/ASCIIHexDecode/Foo/RunLengthDecode]/DecodeParms[<</Name/CF1>>]>>".
Ltac nm := apply ot_name; vm_compute; repeat (apply nb_char; [ReadEx.regular|discriminate|]); apply nb_nil.
Lemma C33_ex : let fl := [OName (lit "Crypt"); OName (lit "ASCIIHexDecode"); OName (lit "Foo"); OName (lit "RunLengthDecode")] in
  let pl := [ODict [(lit "Name", OName (lit "CF1"))]] in
  let h := {| sh_stream := CFRC4 (lit "k"); sh_string := CFNone; sh_file := CFNone; sh_filters := [(lit "Identity", CFNone); (lit "CF1", CFNone)] |} in
  obj_text two_text (ODict two_filters) /\ filters_of two_filters fl /\ parms_of two_filters pl /\
  stream_crypt h two_filters true fl pl CFNone (tl fl) [] /\
  decoded E0 (tl fl) [] (Some (lit "0241 4243>")) (Some (lit "ABC")).
Proof.
  cbv zeta. split; [|split; [|split; [|split]]].
  - apply (ot_dict (lit "/Filter[/Crypt/ASCIIHexDecode/Foo/RunLengthDecode]/DecodeParms[<</Name/CF1>>]") two_filters).
    + cbn [flatten two_filters].
      apply (cons0 (lit "/Filter")); [nm| |right; delim_end].
      apply (cons0 (lit "[/Crypt/ASCIIHexDecode/Foo/RunLengthDecode]")); [| |left; exact I].
      * apply (ot_arr (lit "/Crypt/ASCIIHexDecode/Foo/RunLengthDecode")).
        apply (cons0 (lit "/Crypt")); [nm| |right; delim_end].
        apply (cons0 (lit "/ASCIIHexDecode")); [nm| |right; delim_end].
        apply (cons0 (lit "/Foo")); [nm| |right; delim_end].
        apply (cons0 (lit "/RunLengthDecode")); [nm|apply nil0|right; apply end0].
      * apply (cons0 (lit "/DecodeParms")); [nm| |right; delim_end].
        apply (cons0 (lit "[<</Name/CF1>>]")); [|apply nil0|left; exact I].
        apply (ot_arr (lit "<</Name/CF1>>")). apply (cons0 (lit "<</Name/CF1>>")); [|apply nil0|left; exact I].
        apply (ot_dict (lit "/Name/CF1") [(lit "Name", OName (lit "CF1"))]); [|constructor; [intros []|constructor]].
        apply (cons0 (lit "/Name")); [nm| |right; delim_end]. apply (cons0 (lit "/CF1")); [nm|apply nil0|right; apply end0].
    + constructor; [intros [H|[]]; discriminate|constructor; [intros []|constructor]].
  - apply fo_arr.
    + exists [], (tl two_filters). split; [reflexivity|intros []].
    + intros o H. simpl in H. intuition subst; intros a b; discriminate.
  - apply po_arr.
    + exists [hd (lit "", OName []) two_filters], []. split; [reflexivity|]. intros [H|[]]; discriminate.
    + intros o H. simpl in H. intuition subst; intros a b; discriminate.
  - apply (sc_crypt _ two_filters (tl [OName (lit "Crypt"); OName (lit "ASCIIHexDecode"); OName (lit "Foo"); OName (lit "RunLengthDecode")])
      [ODict [(lit "Name", OName (lit "CF1"))]] (lit "CF1") CFNone (CFRC4 (lit "k"))).
    + match goal with |- default_crypt ?h ?d _ => apply (df_stream h d None) end; [|discriminate|discriminate]. intros H. simpl in H. intuition discriminate.
    + apply cn_name. exists [], []. split; [reflexivity|intros []].
    + left. right. left. reflexivity.
    + constructor; [intros [H|[]]; discriminate|constructor; [intros []|constructor]].
  - eapply dc_cons; [apply (st_hex E0 []); discriminate|].
    eapply dc_cons; [apply st_other; intros H; simpl in H; intuition discriminate|].
    eapply dc_cons; [apply (st_run E0 []); vm_compute; discriminate|]. apply dc_nil.
Qed.
