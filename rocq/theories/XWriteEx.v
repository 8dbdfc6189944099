(** XWriteEx.v -- documents with a cross-reference stream (C101). *)
From Verif Require Import Base BaseP Msg Reader Num Obj ReadObj Env Getters GetObj Xref Load Extract Output Parse SpecFetch SpecOut SpecPage SpecObj SpecStream SpecWrite SpecFollow SpecXWrite SpecList StreamEx OutEx TotalP WriteEx XPutP ListP.
From Coq Require Import Strings.String.

Definition trX : dict := [(lit "Root", ORef 1 0); (lit "Info", ODict [(lit "Title", OStr (lit "xref"))])].
Definition XS : iobj := w_xstream D0 8 trX.
Definition SX : sys := mksys (Some (w_xdocument D0 XS)) (fun _ => true) StatNotExist.
Definition SX_ops : list op := fst (parse E1 OD1 30 SX []).
Lemma DX_good : good_trailer D0 8 trX.
Proof.
  constructor; [constructor | exact (gd_objects _ _ D0_good) | ni].
  - intros o I. exact (go_lay _ (gd_objects _ _ D0_good o I)).
  - lia.
  - dist.
  - unfold trX. prt.
  - intros k I J. vm_compute in I, J. intuition congruence.
  - vm_compute. discriminate.
  - vm_compute. reflexivity.
Qed.
Definition dX : dict := w_xdict D0 8 trX.
Lemma SX_run : parse E1 OD1 30 SX [] = (SX_ops, Ok PNone).
Proof. vm_compute. reflexivity. Qed.
(** the last record ends with a carriage return: the data is in hexadecimal *)
Definition DH : list iobj := [ {| inum := 1; igen := 0; ival := ODict [(lit "JS", OStr (lit "go"))]; istream := None |}; {| inum := 3; igen := 13; ival := OKw (lit "true"); istream := None |} ].
Lemma DH_good : good_trailer DH 2 [(lit "Root", ORef 1 0)].
Proof.
  assert (G : forall o, In o DH -> good_object o) by (intros o I; repeat (destruct I as [<- | I]; [good |]); destruct I).
  constructor; [constructor | exact G | ni].
  - intros o I. exact (go_lay _ (G o I)).
  - lia.
  - dist.
  - prt.
  - intros k I J. vm_compute in I, J. intuition congruence.
  - vm_compute. discriminate.
  - vm_compute. reflexivity.
Qed.
Definition xH : iobj := w_xstream DH 2 [(lit "Root", ORef 1 0)].
Lemma C101_ex : good_trailer DH 2 [(lit "Root", ORef 1 0)] /\ w_xdocument DH xH = List.concat (map (fun l => lit l ++ [x0a]) [
  "%PDF-1.7";
  "1 0 obj";
  "<< /JS <676f>>>";
  "endobj";
  "3 13 obj";
  "true";
  "endobj";
  "2 0 obj";
  "<< /Type /XRef /Size 4 /W [ 1 5 2] /Root 1 0 R /Filter /ASCIIHexDecode>>";
  "stream";
  "000000000000ffff010000000009000001000000003d0000010000000028000d>";
  "endstream";
  "endobj";
  "";
  "startxref";
  "61";
  "%%EOF"]%string).
Proof. split; [exact DH_good | vm_compute; reflexivity]. Qed.
Lemma C101_ex_list : stored E1 (w_xdocument D0 XS) [] (map as_written D0 ++ [x_read XS (w_xdata D0 8)]) /\ doc_urls 1 (map as_written D0 ++ [x_read XS (w_xdata D0 8)]) = Some [lit "http://x.example/(a"].
Proof.
  split; [| vm_compute; reflexivity]. destruct (xwritten E1 D0 8 trX DX_good) as (d & G & _). exact (st_xref E1 D0 XS d (w_xdata D0 8) [] G).
Qed.
Lemma C101_ex_raw : good_trailer D0 8 trX /\ order_ok OD1 /\ s_input SX = Some (w_xdocument D0 XS) /\ parse E1 OD1 30 SX [] = (SX_ops, Ok PNone) /\
  content FText SX_ops = lit "x" ++ [x0a] /\ content FURLs SX_ops = lit "http://x.example/(a" ++ [x0a].
Proof. split; [exact DX_good |]. split; [exact OD1_ok |]. split; [reflexivity |]. split; [exact SX_run |]. split; vm_compute; reflexivity. Qed.
