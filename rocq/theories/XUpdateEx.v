(** XUpdateEx.v -- a document with two updates, each with a cross-reference
    stream (C111). *)
From Verif Require Import Base BaseP Msg Reader Num Obj ReadObj Env Getters GetObj Xref Load Extract Output Parse SpecFetch SpecOut SpecPage SpecObj SpecStream SpecWrite SpecFollow SpecUpdate SpecXWrite SpecXUpdate SpecList StreamEx OutEx TotalP WriteEx UpdateEx XUPutP.
From Coq Require Import Strings.String.

(** the document of WriteEx, *)
Definition P0 : xplan := {| pl_objects := D0; pl_freed := [0]; pl_number := 8; pl_trailer := [(lit "Root", ORef 1 0); (lit "Size", ONum (num_of_Z 10))] |}.
(** an update that changes the text of the page, gives number 6 again, adds 10
    and frees 9, *)
Definition P1 : xplan := {| pl_objects := rv_objects R1; pl_freed := [9]; pl_number := 11; pl_trailer := [(lit "Root", ORef 1 0); (lit "Size", ONum (num_of_Z 12)); (lit "Info", ORef 10 0)] |}.
(** and one that frees 10 and has the number of the first stream for its own. *)
Definition P2 : xplan := {| pl_objects := [ {| inum := 13; igen := 0; ival := OStr (lit "new"); istream := None |} ]; pl_freed := [10]; pl_number := 8; pl_trailer := [(lit "Size", ONum (num_of_Z 14))] |}.
Definition PS : list xplan := [P0; P1; P2].
Definition XRS : list xrevision := p_updates PS.
Definition SXU : sys := mksys (Some (w_xupdated XRS)) (fun _ => true) StatNotExist.
Definition SXU_ops : list op := fst (parse E1 OD1 40 SXU []).
Ltac plan := match goal with |- forall k, In k (map fst _) -> _ => intros k I J; vm_compute in I, J; intuition congruence end.
Lemma P0_lay : lay_plan P0.
Proof.
  constructor; [intros o I; exact (go_lay o (gd_objects _ _ D0_good o I)) | intros n [<- | []]; lia | cbn; lia | dist | cbn [P0 pl_trailer]; prt | plan | vm_compute; discriminate].
Qed.
Lemma P1_lay : lay_plan P1.
Proof.
  constructor; [intros o I; exact (go_lay o (gr_objects _ R1_good o I)) | intros n [<- | []]; lia | cbn; lia | dist | cbn [P1 pl_trailer]; prt | plan | vm_compute; discriminate].
Qed.
Lemma P2_lay : lay_plan P2.
Proof.
  constructor; [intros o I; apply go_lay; repeat (destruct I as [<- | I]; [good |]); destruct I | intros n [<- | []]; lia | cbn; lia | dist | cbn [P2 pl_trailer]; prt | plan | vm_compute; discriminate].
Qed.
Lemma PS_good : good_plans PS.
Proof.
  constructor; [constructor | |].
  - discriminate.
  - intros p [<- | [<- | [<- | []]]]; [exact P0_lay | exact P1_lay | exact P2_lay].
  - intros p [<- | [<- | []]]; eexists; eexists; (split; [reflexivity |]); intros d Q; [injection Q as <-; split; ni | discriminate Q].
  - vm_compute. reflexivity.
  - intros p o [<- | [<- | [<- | []]]] I; [exact (gd_objects _ _ D0_good o I) | exact (gr_objects _ R1_good o I) |]. repeat (destruct I as [<- | I]; [good |]); destruct I.
  - intros p [<- | [<- | [<- | []]]]; cbn [P0 P1 P2 pl_trailer]; ni.
Qed.
Lemma C111_ex : good_plans PS /\ good_xupdates E1 XRS /\ map inum (xliving XRS) = map inum (firstn 3 D0 ++ skipn 6 D0) ++ [4; 6; 11; 13; 8] /\
  xkey (lit "Info") XRS = Some (ORef 10 0) /\ xkey (lit "Size") XRS = Some (ONum (num_of_Z 14)) /\
  w_xrevision 1027 (p_revision (Some 827) 1027 P2) = List.concat (map (fun l => lit l ++ [x0a]) [
  "13 0 obj";
  "<6e6577>";
  "endobj";
  "8 0 obj";
  "<< /Type /XRef /W [ 1 5 2] /Index [ 10 1 13 1 8 1] /Prev 827 /Size 14>>";
  "stream"]%string) ++ [x00; x00; x00; x00; x00; x00; xff; xff; x01; x00; x00; x00; x04; x03; x00; x00; x01; x00; x00; x00; x04; x1c; x00; x00; x0a] ++
  List.concat (map (fun l => lit l ++ [x0a]) ["endstream"; "endobj"; ""; "startxref"; "1052"; "%%EOF"]%string) /\
  skipn (Z.to_nat 1027) (w_xupdated XRS) = w_xrevision 1027 (p_revision (Some 827) 1027 P2).
Proof. split; [exact PS_good |]. split; [apply updates_written; exact PS_good |]. split; [vm_compute; reflexivity |]. split; [vm_compute; reflexivity |]. split; [vm_compute; reflexivity |]. split; vm_compute; reflexivity. Qed.
Lemma C111_ex_raw : order_ok OD1 /\ s_input SXU = Some (w_xupdated XRS) /\ parse E1 OD1 40 SXU [] = (SXU_ops, Ok PNone) /\
  content FText SXU_ops = lit "y" ++ [x0a] /\ content FURLs SXU_ops = lit "http://x.example/(a" ++ [x0a].
Proof. split; [exact OD1_ok |]. split; [reflexivity |]. split; [vm_compute; reflexivity |]. split; vm_compute; reflexivity. Qed.
Lemma XRS_within : forall h, within (xliving XRS) h -> In h (flat_map (fun o => dicts (ival o)) (xliving XRS)).
Proof. intros h (o & I & H). apply in_flat_map. exists o. split; [exact I | apply holds_dicts; exact H]. Qed.
Lemma C111_ex_list : stored E1 (w_xupdated XRS) [] (xliving XRS) /\ doc_urls 1 (xliving XRS) = Some [lit "http://x.example/(a"] /\ direct_kids (xliving XRS) /\ moderate_maps (xliving XRS) /\ e_verbose E1 <> None /\ (forall f, s_create SXU f = true).
Proof.
  split; [apply st_xupdated, updates_written; exact PS_good |]. split; [vm_compute; reflexivity |]. split; [| split; [| split; [discriminate | reflexivity]]].
  - intros h n g H Q. apply XRS_within in H. vm_compute in H. repeat (destruct H as [<- | H]; [vm_compute in Q; discriminate Q |]). exact H.
  - intros h n g o s H Q. apply XRS_within in H. exfalso. vm_compute in H. repeat (destruct H as [<- | H]; [vm_compute in Q; discriminate Q |]). exact H.
Qed.
