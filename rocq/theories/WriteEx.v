(** WriteEx.v -- a document that can be written (C90, C91, C92). *)
From Verif Require Import Base BaseP Msg Reader Num Obj ReadObj Env Getters GetObj Xref Load Extract Output Parse SpecFetch SpecOut SpecPage SpecObj SpecStream SpecWrite SpecFollow StreamEx OutEx TotalP.
From Coq Require Import Strings.String.

Definition catalog : dict := [(lit "Type", OName (lit "Catalog")); (lit "Pages", ORef 2 0);
  (lit "OpenAction", ODict [(lit "S", OName (lit "URI")); (lit "URI", OStr (lit "http://x.example/(a"))])].
Definition odd : obj := OArr [ONum (num_of_Z (-7)); OStr [x00; "("%byte; "\"%byte; x0d; xff]; OName (lit "A B#/c"); ORef 6 0; OKw (lit "true"); ODict []].
Definition D0 : list iobj :=
  [ {| inum := 1; igen := 0; ival := ODict catalog; istream := None |};
    {| inum := 2; igen := 0; ival := ODict [(lit "Kids", OArr [ORef 3 0]); (lit "Count", ONum (num_of_Z 1))]; istream := None |};
    {| inum := 3; igen := 0; ival := ODict [(lit "Contents", ORef 4 0)]; istream := None |};
    {| inum := 4; igen := 0; ival := ODict [(lit "Note", OStr (lit "endstream endobj"))]; istream := Some (lit "BT (x) Tj ET endstream") |};
    {| inum := 9; igen := 3; ival := odd; istream := None |};
    {| inum := 6; igen := 0; ival := ORef 9 3; istream := None |};
    {| inum := 7; igen := 0; ival := ODict [(lit "N", ONum (num_of_Z 1))]; istream := Some (lit "q 1 0 0 RG" ++ x0a :: lit "Q") |} ].
Definition tr0 : dict := [(lit "Root", ORef 1 0); (lit "Size", ONum (num_of_Z 10))].
Definition SW : sys := mksys (Some (w_document D0 tr0)) (fun _ => true) StatNotExist.
Lemma no_xref : forall t, forallb (fun k => negb (bseq (firstn 4 (skipn k t)) (lit "xref"))) (seq 0 (S (List.length t))) = true -> ~ occurs (lit "xref") t.
Proof. exact (occurs_check (lit "xref")). Qed.
Ltac nx := apply no_xref; vm_compute; reflexivity.
Ltac dist := vm_compute; repeat (constructor; [intros Q; repeat (destruct Q as [Q | Q]; [discriminate Q |]); exact Q |]); constructor.
Ltac ni := let Q := fresh "Q" in cbn [map fst]; intros Q; repeat (destruct Q as [Q | Q]; [vm_compute in Q; discriminate Q |]); exact Q.
Ltac prt := cbn [printable]; repeat match goal with
  | |- _ /\ _ => split
  | |- True => exact Logic.I
  | |- NoDup _ => dist
  | |- ~ occurs _ _ => nx
  | |- plain_words _ => unfold plain_words; tauto
  | |- exists z, _ /\ num_of_Z ?y = num_of_Z z => exists y
  | |- _ => lia
  end; auto.
Ltac lay := constructor; [constructor; cbn [inum igen ival istream];
  [lia | lia | prt
   | let Q := fresh in intros ? Q; first [discriminate Q | injection Q as <-; eexists; split; [reflexivity |]; split; [intros _; ni | vm_compute; discriminate]]]
  | let Q := fresh in cbn [inum igen ival istream]; intros ? Q; first [discriminate Q | injection Q as <-; ni]].
Ltac good := constructor; [lay | let Q := fresh in cbn [inum igen ival istream]; intros ? ? Q; first [discriminate Q | injection Q as <-; split; [intros ? ?; ni | split; ni] | congruence]].
Lemma D0_good : good_document D0 tr0.
Proof.
  assert (G : forall o, In o D0 -> good_object o) by (intros o I; repeat (destruct I as [<- | I]; [unfold catalog, odd; good |]); destruct I).
  constructor; [| exact G | ni]. constructor.
  - intros o I. apply go_lay, G, I.
  - dist.
  - unfold tr0. prt.
  - ni.
  - vm_compute. reflexivity.
Qed.
Lemma holds_num : forall v h, ~ holds (ONum v) h. Proof. intros v h H. inversion H. Qed.
Lemma holds_str : forall v h, ~ holds (OStr v) h. Proof. intros v h H. inversion H. Qed.
Lemma holds_name : forall v h, ~ holds (OName v) h. Proof. intros v h H. inversion H. Qed.
Lemma holds_kw : forall v h, ~ holds (OKw v) h. Proof. intros v h H. inversion H. Qed.
Lemma holds_ref : forall n g h, ~ holds (ORef n g) h. Proof. intros n g h H. inversion H. Qed.
(** the dictionaries in an object, listed *)
Fixpoint dicts (o : obj) : list dict :=
  match o with
  | OArr l => flat_map dicts l
  | ODict d => d :: flat_map (fun kv => dicts (snd kv)) d
  | _ => []
  end.
Lemma holds_dicts : forall o h, holds o h -> In h (dicts o).
Proof.
  intros o h H. induction H as [d | k x d e I H IH | x l e I H IH]; cbn [dicts]; [left; reflexivity | right | ]; apply in_flat_map; [exists (k, x) | exists x]; auto.
Qed.
Lemma D0_within : forall h, within D0 h -> In h (flat_map (fun o => dicts (ival o)) D0).
Proof. intros h (o & I & H). apply in_flat_map. exists o. split; [exact I | apply holds_dicts; exact H]. Qed.
Lemma D0_direct : direct_kids D0.
Proof. intros h n g H Q. apply D0_within in H. cbn in H. repeat (destruct H as [<- | H]; [vm_compute in Q; discriminate Q |]). exact H. Qed.
Lemma D0_maps : moderate_maps D0.
Proof. intros h n g o s H Q. apply D0_within in H. exfalso. cbn in H. repeat (destruct H as [<- | H]; [vm_compute in Q; discriminate Q |]). exact H. Qed.
Lemma C90_ex : good_document D0 tr0 /\ w_document D0 tr0 = List.concat (map (fun l => lit l ++ [x0a]) [
  "%PDF-1.7";
  "1 0 obj";
  "<< /Type /Catalog /Pages 2 0 R /OpenAction << /S /URI /URI <687474703a2f2f782e6578616d706c652f2861>>>>>";
  "endobj";
  "2 0 obj";
  "<< /Kids [ 3 0 R] /Count 1>>";
  "endobj";
  "3 0 obj";
  "<< /Contents 4 0 R>>";
  "endobj";
  "4 0 obj";
  "<< /Note <656e6473747265616d20656e646f626a> /Filter /ASCIIHexDecode>>";
  "stream";
  "42542028782920546a20455420656e6473747265616d>";
  "endstream";
  "endobj";
  "9 3 obj";
  "[ -7 <00285c0dff> /A#20B#23#2fc 6 0 R true <<>>]";
  "endobj";
  "6 0 obj";
  "9 3 R";
  "endobj";
  "7 0 obj";
  "<< /N 1>>";
  "stream";
  "q 1 0 0 RG";
  "Q";
  "endstream";
  "endobj";
  "xref";
  "0 1";
  "0000000000 65535 f ";
  "1 1";
  "0000000009 00000 n ";
  "2 1";
  "0000000128 00000 n ";
  "3 1";
  "0000000172 00000 n ";
  "4 1";
  "0000000208 00000 n ";
  "9 1";
  "0000000356 00003 n ";
  "6 1";
  "0000000420 00000 n ";
  "7 1";
  "0000000441 00000 n ";
  "trailer";
  "<< /Root 1 0 R /Size 10>>";
  "startxref";
  "496";
  "%%EOF"]%string).
Proof. split; [exact D0_good | vm_compute; reflexivity]. Qed.
Definition SW_ops : list op := fst (parse E1 OD1 30 SW []).
Lemma SW_run : parse E1 OD1 30 SW [] = (SW_ops, Ok PNone).
Proof. vm_compute. reflexivity. Qed.
Lemma C91_ex : order_ok OD1 /\ s_input SW = Some (w_document D0 tr0) /\ parse E1 OD1 30 SW [] = (SW_ops, Ok PNone) /\
  content FText SW_ops = lit "x" ++ [x0a] /\ content FURLs SW_ops = lit "http://x.example/(a" ++ [x0a].
Proof.
  split; [exact OD1_ok |]. split; [reflexivity |]. split; [exact SW_run |]. split; vm_compute; reflexivity.
Qed.
Lemma C92_ex : good_document D0 tr0 /\ direct_kids D0 /\ moderate_maps D0 /\ e_verbose E1 <> None /\ (forall f, s_create SW f = true).
Proof. split; [exact D0_good |]. split; [exact D0_direct |]. split; [exact D0_maps |]. split; [discriminate | reflexivity]. Qed.
