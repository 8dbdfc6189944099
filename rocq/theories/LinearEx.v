(** LinearEx.v -- a linearized document (C118). *)
From Verif Require Import Base BaseP Msg Reader Num Obj ReadObj Env Getters GetObj Xref Load Extract Output Parse SpecFetch SpecOut SpecPage SpecObj SpecStream SpecWrite SpecFollow SpecUpdate StreamEx OutEx TotalP WriteEx SpecLinear.
From Coq Require Import Strings.String Sorting.Permutation.

(** The document of C90: in front of the first table is one more object, behind
    it are the others; the first table lists that one, the catalog and the page. *)
Definition L8 : iobj := {| inum := 8; igen := 0; ival := ODict [(lit "Linearized", ONum (num_of_Z 1)); (lit "O", ONum (num_of_Z 3)); (lit "N", ONum (num_of_Z 1))]; istream := None |}.
Definition of_page (p : Z * iobj) : bool := existsb (Z.eqb (inum (snd p))) [8; 1; 3; 4].
Definition LXwith (prev : Z) (l : list (Z * iobj)) : linear :=
  {| ln_first := [L8]; ln_second := D0; ln_lines := filter of_page l; ln_more := filter (fun p => negb (of_page p)) l;
     ln_main := [(lit "Root", ORef 1 0); (lit "Size", ONum (num_of_Z 10))]; ln_other := [(lit "Size", ONum (num_of_Z 8)); (lit "Info", ORef 7 0)]; ln_prev := prev; ln_start := 0 |}.
(** the lengths do not depend on the numbers *)
Definition LX0 : linear := LXwith 100 (map (fun o => (0, o)) (L8 :: D0)).
Definition LX : linear := LXwith (at_second LX0) (ln_places LX0).
Lemma split_list : forall (A : Type) (f : A -> bool) (l : list A), Permutation (filter f l ++ filter (fun z => negb (f z)) l) l.
Proof.
  intros A f l. induction l as [| z l IH]; [constructor |]. cbn [filter]. destruct (f z); cbn [negb app]; [constructor; exact IH |]. rewrite <- Permutation_middle. constructor. exact IH.
Qed.
Lemma L8_good : good_object L8.
Proof. unfold L8. good. Qed.
Lemma LX_good : good_linear LX.
Proof.
  constructor.
  - intros o [<- | I]; [exact L8_good | exact (gd_objects _ _ D0_good o I)].
  - dist.
  - assert (Q : ln_places LX = ln_places LX0) by (vm_compute; reflexivity). rewrite Q. apply split_list.
  - vm_compute. reflexivity.
  - cbn [LX LXwith ln_start]. lia.
  - cbn [LX LXwith ln_main]. prt.
  - cbn [LX LXwith ln_other]. prt.
  - split; ni.
  - split; ni.
  - intros o D d Q1 Q2. injection Q1 as <- _. injection Q2 as <-. split; ni.
  - vm_compute. reflexivity.
Qed.
Definition SL : sys := mksys (Some (w_linear LX)) (fun _ => true) StatNotExist.
Definition SL_ops : list op := fst (parse E1 OD1 30 SL []).
Lemma SL_run : parse E1 OD1 30 SL [] = (SL_ops, Ok PNone).
Proof. vm_compute. reflexivity. Qed.
Lemma LX_within : forall h, within (ln_objects LX) h -> In h (flat_map (fun o => dicts (ival o)) (ln_objects LX)).
Proof. intros h (o & I & H). apply in_flat_map. exists o. split; [exact I | apply holds_dicts; exact H]. Qed.
Lemma LX_direct : direct_kids (ln_objects LX).
Proof. intros h n g H Q. apply LX_within in H. cbn in H. repeat (destruct H as [<- | H]; [vm_compute in Q; discriminate Q |]). exact H. Qed.
Lemma LX_maps : moderate_maps (ln_objects LX).
Proof. intros h n g o s H Q. apply LX_within in H. exfalso. cbn in H. repeat (destruct H as [<- | H]; [vm_compute in Q; discriminate Q |]). exact H. Qed.
Lemma C118_ex : good_linear LX /\ direct_kids (ln_objects LX) /\ moderate_maps (ln_objects LX) /\ order_ok OD1 /\ e_verbose E1 <> None /\ s_input SL = Some (w_linear LX) /\ (forall f, s_create SL f = true) /\
  parse E1 OD1 30 SL [] = (SL_ops, Ok PNone) /\ content FURLs SL_ops = lit "http://x.example/(a" ++ [x0a] /\
  ln_key LX (lit "Size") = Some (ONum (num_of_Z 10)) /\ ln_key LX (lit "Info") = Some (ORef 7 0) /\ (exists d, ln_stray LX d /\ entry d (lit "Pages") = Some (ORef 2 0)) /\
  w_linear LX = List.concat (map (fun l => lit l ++ [x0a]) [
  "%PDF-1.7";
  "8 0 obj";
  "<< /Linearized 1 /O 3 /N 1>>";
  "endobj";
  "xref";
  "0 1";
  "0000000000 65535 f ";
  "8 1";
  "0000000009 00000 n ";
  "1 1";
  "0000000240 00000 n ";
  "3 1";
  "0000000403 00000 n ";
  "4 1";
  "0000000439 00000 n ";
  "trailer";
  "<< /Root 1 0 R /Size 10 /Prev 727>>";
  "startxref";
  "0";
  "%%EOF"]%string) ++ w_objects D0 ++ List.concat (map (fun l => lit l ++ [x0a]) [
  "xref";
  "0 1";
  "0000000000 65535 f ";
  "2 1";
  "0000000359 00000 n ";
  "9 1";
  "0000000587 00003 n ";
  "6 1";
  "0000000651 00000 n ";
  "7 1";
  "0000000672 00000 n ";
  "trailer";
  "<< /Size 8 /Info 7 0 R>>";
  "startxref";
  "53";
  "%%EOF"]%string).
Proof.
  split; [exact LX_good |]. split; [exact LX_direct |]. split; [exact LX_maps |]. split; [exact OD1_ok |]. split; [discriminate |]. split; [reflexivity |]. split; [reflexivity |]. split; [exact SL_run |]. split; [vm_compute; reflexivity |].
  split; [reflexivity |]. split; [reflexivity |]. split; [eexists; split; [eexists; eexists; split; [reflexivity | reflexivity] | reflexivity] |]. vm_compute. reflexivity.
Qed.
