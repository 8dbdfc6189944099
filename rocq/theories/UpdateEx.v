(** UpdateEx.v -- a document with two updates (C95, C96). *)
From Verif Require Import Base BaseP Msg Reader Num Obj ReadObj Env Getters GetObj Xref Load Extract Output Parse SpecFetch SpecOut SpecPage SpecObj SpecStream SpecWrite SpecFollow SpecUpdate StreamEx OutEx TotalP WriteEx.
From Coq Require Import Strings.String.

(** the document of WriteEx, *)
Definition R0 : revision := {| rv_objects := D0; rv_freed := []; rv_trailer := tr0 |}.
(** an update that changes the text of the page, gives number 6 again, adds 10
    and frees 9, *)
Definition R1 : revision := {| rv_objects :=
  [ {| inum := 4; igen := 0; ival := ODict [(lit "Producer", OName (lit "B"))]; istream := Some (lit "BT (y) Tj ET") |};
    {| inum := 6; igen := 1; ival := OStr (lit "six"); istream := None |};
    {| inum := 10; igen := 0; ival := OKw (lit "false"); istream := None |} ];
  rv_freed := [9]; rv_trailer := [(lit "Root", ORef 1 0); (lit "Size", ONum (num_of_Z 11)); (lit "Info", ORef 10 0)] |}.
(** and one without objects, which frees 10. *)
Definition R2 : revision := {| rv_objects := []; rv_freed := [10; 12]; rv_trailer := [(lit "Size", ONum (num_of_Z 13))] |}.
Definition RS : list revision := [R0; R1; R2].
Definition SU : sys := mksys (Some (w_updated RS)) (fun _ => true) StatNotExist.
Lemma R1_good : good_revision R1.
Proof.
  constructor.
  - intros o I. repeat (destruct I as [<- | I]; [good |]). destruct I.
  - intros n [<- | []]. lia.
  - dist.
  - cbn [R1 rv_trailer]. prt.
  - split; ni.
Qed.
Lemma R2_good : good_revision R2.
Proof.
  constructor; [intros o [] | intros n [<- | [<- | []]]; lia | dist | cbn [R2 rv_trailer]; prt | split; ni].
Qed.
Lemma R0_good : good_revision R0.
Proof. destruct D0_good as [[_ B C D _] A E]. constructor; [exact A | intros n [] | exact B | exact C | exact (conj D E)]. Qed.
Lemma RS_good : good_updates RS.
Proof.
  constructor.
  - discriminate.
  - intros r [<- | [<- | [<- | []]]]; [exact R0_good | exact R1_good | exact R2_good].
  - intros rs1 r rs2 Q N. assert (H : In r [R1; R2]). { destruct rs1 as [| a rs1]; [contradiction |]. injection Q as _ Q. change ([R1; R2] = rs1 ++ r :: rs2) in Q. rewrite Q. apply in_or_app. right. left. reflexivity. }
    destruct H as [<- | [<- | []]]; intros o D d Q1 Q2; [| discriminate Q1]. injection Q1 as <- _. injection Q2 as <-. split; ni.
  - vm_compute. reflexivity.
Qed.
Lemma C95_ex : good_updates RS /\
  living RS = firstn 3 D0 ++ skipn 6 D0 ++ firstn 2 (rv_objects R1) /\
  current_key (lit "Info") RS None = Some (ORef 10 0) /\ current_key (lit "Size") RS None = Some (ONum (num_of_Z 13)) /\
  (exists d, first_of RS d /\ entry d (lit "Producer") = Some (OName (lit "B"))) /\
  skipn (List.length (w_document D0 tr0)) (w_updated RS) = List.concat (map (fun l => lit l ++ [x0a]) [
  "4 0 obj";
  "<< /Producer /B>>";
  "stream";
  "BT (y) Tj ET";
  "endstream";
  "endobj";
  "6 1 obj";
  "<736978>";
  "endobj";
  "10 0 obj";
  "false";
  "endobj";
  "xref";
  "0 1";
  "0000000000 65535 f ";
  "9 1";
  "0000000000 65535 f ";
  "4 1";
  "0000000747 00000 n ";
  "6 1";
  "0000000810 00001 n ";
  "10 1";
  "0000000834 00000 n ";
  "trailer";
  "<< /Root 1 0 R /Size 11 /Info 10 0 R /Prev 496>>";
  "startxref";
  "856";
  "%%EOF";
  "xref";
  "0 1";
  "0000000000 65535 f ";
  "10 1";
  "0000000000 65535 f ";
  "12 1";
  "0000000000 65535 f ";
  "trailer";
  "<< /Size 13 /Prev 856>>";
  "startxref";
  "1059";
  "%%EOF"]%string).
Proof.
  split; [exact RS_good |]. split; [vm_compute; reflexivity |]. split; [vm_compute; reflexivity |]. split; [vm_compute; reflexivity |]. split.
  - eexists. split; [exists [R0], R1, [R2]; do 2 eexists; split; [reflexivity |]; split; [discriminate |]; split; reflexivity | reflexivity].
  - vm_compute. reflexivity.
Qed.
Definition SU_ops : list op := Eval vm_compute in fst (parse E1 OD1 30 SU []).
Lemma SU_run : parse E1 OD1 30 SU [] = (SU_ops, Ok PNone).
Proof. vm_compute. reflexivity. Qed.
Lemma C96_ex : order_ok OD1 /\ s_input SU = Some (w_updated RS) /\ parse E1 OD1 30 SU [] = (SU_ops, Ok PNone) /\ content FText SU_ops = lit "y" ++ [x0a].
Proof. split; [exact OD1_ok |]. split; [reflexivity |]. split; [exact SU_run |]. vm_compute. reflexivity. Qed.
Lemma RS_within : forall h, within (living RS) h -> In h (flat_map (fun o => dicts (ival o)) (living RS)).
Proof. intros h (o & I & H). apply in_flat_map. exists o. split; [exact I | apply holds_dicts; exact H]. Qed.
Lemma C96_ex2 : direct_kids (living RS) /\ moderate_maps (living RS) /\ e_verbose E1 <> None /\ (forall f, s_create SU f = true).
Proof.
  split; [| split; [| split; [discriminate | reflexivity]]].
  - intros h n g H Q. apply RS_within in H. cbn in H. repeat (destruct H as [<- | H]; [vm_compute in Q; discriminate Q |]). exact H.
  - intros h n g o s H Q. apply RS_within in H. exfalso. cbn in H. repeat (destruct H as [<- | H]; [vm_compute in Q; discriminate Q |]). exact H.
Qed.
