(** XUSealEx.v -- an encrypted document with two updates that have
    cross-reference streams (C113). *)
From Verif Require Import Base BaseP Msg Reader Num NumP Obj ReadObj Env Getters GetObj Xref Crypt Rc4 Md5 Security Load Extract Output Parse SpecFetch SpecOut SpecPage SpecObj SpecStream SpecXref SpecCrypt CryptP SpecSecurity SecurityP
  SpecCryptDoc CryptDocP SpecWrite SpecFollow SpecSeal SpecUpdate SpecUSeal SpecXWrite SpecXUpdate SpecXUSeal SpecList StreamEx OutEx TotalP WriteEx SealEx USealEx XUpdateEx XUPutP.
From Coq Require Import Strings.String.

(** the updates of C112, *)
Definition Q0 : xplan := {| pl_objects := CS; pl_freed := [0]; pl_number := 8; pl_trailer := trS |}.
Definition Q1 : xplan := {| pl_objects := [C4; C7]; pl_freed := [6]; pl_number := 9; pl_trailer := trS ++ [(lit "Info", ORef 7 0)] |}.
(** where the last one adds 10 and has the number of the first stream for its
    own. *)
Definition C10 : iobj := Eval vm_compute in obj_of 10 (hide 10 (OStr (lit "ten"))) None.
Definition Q2 : xplan := {| pl_objects := [C10]; pl_freed := [7]; pl_number := 8; pl_trailer := [(lit "Size", ONum (num_of_Z 11))] |}.
Definition QS : list xplan := [Q0; Q1; Q2].
Definition XWS : list xrevision := p_updates QS.
Definition XDS : list (list iobj) := [DS; rv_objects V1; [obj_of 10 (OStr (lit "ten")) None]].
Definition SXUC : sys := mksys (Some (w_xupdated XWS)) (fun _ => true) StatNotExist.
Lemma QS_lay : lay_plans QS.
Proof.
  constructor.
  - discriminate.
  - intros p [<- | [<- | [<- | []]]].
    + constructor; [exact (ld_objects _ _ layS) | intros n [<- | []]; lia | cbn; lia | dist | exact (ld_trailer _ _ layS) | plan | vm_compute; discriminate].
    + constructor; [exact (lv_objects _ (lu_revisions _ layW W1 (or_intror (or_introl eq_refl)))) | intros n [<- | []]; lia | cbn; lia | dist | exact (lv_trailer _ (lu_revisions _ layW W1 (or_intror (or_introl eq_refl)))) | plan | vm_compute; discriminate].
    + constructor; [intros o I; unfold Q2, C10 in I; cbn [pl_objects] in I; repeat (destruct I as [<- | I]; [first [lay; nums | layr] |]); destruct I | intros n [<- | []]; lia | cbn; lia | dist | cbn [Q2 pl_trailer]; prt | plan | vm_compute; discriminate].
  - intros p [<- | [<- | []]]; eexists; eexists; (split; [reflexivity |]); intros d Q; [injection Q as <-; split; ni | discriminate Q].
  - vm_compute. reflexivity.
Qed.
Lemma forall2_Q2 : Forall2 (fun o c => Some 5 = Some (inum o) /\ c = o \/ Some 5 <> Some (inum o) /\ sealed_object E1 kS schemeS o c) [obj_of 10 (OStr (lit "ten")) None] [C10].
Proof. key 10. constructor; [right | constructor]. split; [discriminate |]. apply (so_plain E1 kS schemeS). sl. Qed.
Definition LX : list revision := Eval vm_compute in clear_updates XDS XWS.
Lemma LX_is : clear_updates XDS XWS = LX.
Proof. vm_compute. reflexivity. Qed.
Lemma sealedX : sealed_xupdates E1 XDS XWS prS pwS.
Proof.
  split; [apply updates_laid; exact QS_lay |]. cbv zeta. rewrite LX_is. exists encS, (Some 5), schemeS. split.
  { assert (I : In (obj_of 5 (ODict encS) None) (living LX)) by (vm_compute; tauto). exact (ee_object (living LX) encS (obj_of 5 (ODict encS) None) 0 I eq_refl eq_refl). }
  split.
  { split; try reflexivity; try (eexists; split; reflexivity); try (exists []; reflexivity); [| left; split; reflexivity].
    right. split; [right; split; [reflexivity |]; split; [reflexivity |]; exists cfS; split; [left; reflexivity |] | exists 128; split; [left; eexists; split; reflexivity | split; [lia | reflexivity]]].
    split; [dist |]. intros k o [Q | []]. injection Q as <- <-. do 2 eexists. split; [reflexivity |]. split; [reflexivity |]. left. exists 16. split; [eexists; split; reflexivity | lia]. }
  split; [exact userS |]. split.
  { split; [left; exists (lit "B"); split; [reflexivity | exact namedS_b] |]. split; [left; exists (lit "B"); split; [reflexivity | exact namedS_b] |].
    split; [right; split; reflexivity |]. intros k m [-> ->]. exact namedS_identity. }
  split; [split; [discriminate |]; split; [discriminate |]; split; [discriminate | intros k [_ Q]; discriminate Q] |].
  split; [split; [discriminate |]; split; [discriminate | reflexivity] |].
  change (pr_n prS) with 16%nat. rewrite keyS.
  constructor; [exact forall2_S |]. constructor; [exact forall2_V1 |]. constructor; [exact forall2_Q2 | constructor].
Qed.
Definition SXUC_ops : list op := fst (parse E1 OD1 40 SXUC pwS).
Lemma C113_ex : lay_plans QS /\ sealed_xupdates E1 XDS XWS prS pwS /\ (forall x, List.length (e_md5 E1 x) = 16%nat) /\ ~ user_password E1 prS (lit "shut") /\
  map inum (living (clear_updates XDS XWS)) = [1; 2; 3; 5; 4; 9; 10; 8] /\
  current_key (lit "Info") (clear_updates XDS XWS) None = Some (ORef 7 0) /\ current_key (lit "Encrypt") (clear_updates XDS XWS) None = Some (ORef 5 0).
Proof. split; [exact QS_lay |]. split; [exact sealedX |]. split; [exact md5_16 |]. split; [exact not_userS |]. rewrite LX_is. split; [vm_compute; reflexivity |]. split; vm_compute; reflexivity. Qed.
Lemma C113_ex_raw : order_ok OD1 /\ s_input SXUC = Some (w_xupdated XWS) /\ parse E1 OD1 40 SXUC pwS = (SXUC_ops, Ok PNone) /\
  content FText SXUC_ops = lit "y" ++ [x0a] /\ content FURLs SXUC_ops = lit "http://x.example/(a" ++ [x0a].
Proof. split; [exact OD1_ok |]. split; [reflexivity |]. split; [vm_compute; reflexivity |]. split; vm_compute; reflexivity. Qed.
Lemma LX_within : forall h, within (living LX) h -> In h (flat_map (fun o => dicts (ival o)) (living LX)).
Proof. intros h (o & I & H). apply in_flat_map. exists o. split; [exact I | apply holds_dicts; exact H]. Qed.
Lemma C113_ex_list : let D := living (clear_updates XDS XWS) in
  stored E1 (w_xupdated XWS) pwS D /\ doc_urls 1 D = Some [lit "http://x.example/(a"] /\ direct_kids D /\ moderate_maps D /\ e_verbose E1 <> None /\ (forall f, s_create SXUC f = true).
Proof.
  cbv zeta. split; [exact (st_xusealed E1 XDS XWS prS pwS md5_16 sealedX) |]. rewrite LX_is. split; [vm_compute; reflexivity |]. split; [| split; [| split; [discriminate | reflexivity]]].
  - intros h n g H Q. apply LX_within in H. vm_compute in H. repeat (destruct H as [<- | H]; [vm_compute in Q; discriminate Q |]). exact H.
  - intros h n g o s H Q. apply LX_within in H. exfalso. vm_compute in H. repeat (destruct H as [<- | H]; [vm_compute in Q; discriminate Q |]). exact H.
Qed.
