(** USealEx.v -- an encrypted document with two updates (C112). *)
From Verif Require Import Base BaseP Msg Reader Num NumP Obj ReadObj Env Getters GetObj Xref Crypt Rc4 Md5 Security Load Extract Output Parse SpecFetch SpecOut SpecPage SpecObj SpecStream SpecXref SpecCrypt CryptP SpecSecurity SecurityP
  SpecCryptDoc CryptDocP SpecWrite SpecFollow SpecSeal SpecUpdate SpecUSeal SpecList StreamEx OutEx TotalP WriteEx SealEx.
From Coq Require Import Strings.String.

(** the document of C97, *)
Definition V0 : revision := {| rv_objects := DS; rv_freed := []; rv_trailer := trS |}.
(** an update that changes the text of the page, frees 6 and adds 7, *)
Definition V1 : revision := {| rv_objects := [obj_of 4 (ODict contents) (Some (lit "BT (y) Tj ET")); obj_of 7 (OStr (lit "seven")) None];
  rv_freed := [6]; rv_trailer := trS ++ [(lit "Info", ORef 7 0)] |}.
(** and one without a reference to the encryption dictionary, which frees 7. *)
Definition V2 : revision := {| rv_objects := []; rv_freed := [7]; rv_trailer := [(lit "Size", ONum (num_of_Z 8))] |}.
Definition VS : list revision := [V0; V1; V2].
Definition C4 : iobj := Eval vm_compute in obj_of 4 (hide 4 (ODict contents)) (Some (rc4 (okS 4) (hex (lit "BT (y) Tj ET") ++ lit ">"))).
Definition C7 : iobj := Eval vm_compute in obj_of 7 (hide 7 (OStr (lit "seven"))) None.
Definition W0 : revision := {| rv_objects := CS; rv_freed := []; rv_trailer := trS |}.
Definition W1 : revision := {| rv_objects := [C4; C7]; rv_freed := [6]; rv_trailer := trS ++ [(lit "Info", ORef 7 0)] |}.
Definition WS : list revision := [W0; W1; V2].
Definition SUC : sys := mksys (Some (w_updated WS)) (fun _ => true) StatNotExist.

Lemma layW : lay_updates WS.
Proof.
  constructor.
  - discriminate.
  - intros r [<- | [<- | [<- | []]]].
    + destruct layS as [A B C D _]. constructor; [exact A | intros n [] | exact B | exact C | exact D].
    + constructor; [intros o I; unfold W1, C4, C7 in I; cbn [rv_objects] in I; repeat (destruct I as [<- | I]; [first [lay; nums | layr] |]); destruct I | intros n [<- | []]; lia | dist | unfold W1, trS; cbn [rv_trailer app]; prt | unfold W1, trS; cbn [rv_trailer app]; ni].
    + constructor; [intros o [] | intros n [<- | []]; lia | dist | cbn [V2 rv_trailer]; prt | cbn [V2 rv_trailer]; ni].
  - intros rs1 r rs2 Q N. assert (H : In r [W1; V2]). { destruct rs1 as [| a rs1]; [contradiction |]. injection Q as _ Q. change ([W1; V2] = rs1 ++ r :: rs2) in Q. rewrite Q. apply in_or_app. right. left. reflexivity. }
    destruct H as [<- | [<- | []]]; intros o D d Q1 Q2; [| discriminate Q1]. injection Q1 as <- _. injection Q2 as <-. split; ni.
  - vm_compute. reflexivity.
Qed.
Lemma forall2_V1 : Forall2 (fun o c => Some 5 = Some (inum o) /\ c = o \/ Some 5 <> Some (inum o) /\ sealed_object E1 kS schemeS o c) (rv_objects V1) (rv_objects W1).
Proof.
  key 4. key 7. unfold V1, W1. cbn [rv_objects]. repeat (apply Forall2_cons); [right | right | apply Forall2_nil]; (split; [discriminate |]).
  - apply (so_stream E1 kS schemeS) with (fl := [OName (lit "ASCIIHexDecode")]) (pl := []) (m := Rc4) (fl' := [OName (lit "ASCIIHexDecode")]) (pl' := []) (plain := hex (lit "BT (y) Tj ET") ++ lit ">").
    + sl.
    + apply fo_name. exists [], (tl contents). split; [reflexivity | intros []].
    + apply po_none. ni.
    + intros x (d1 & d2 & Q & _). destruct d1 as [| y [| z d1]]; [discriminate | discriminate | destruct d1; discriminate].
    + apply (sm_stream schemeS); [discriminate |]. intros (d1 & d2 & Q & _). destruct d1 as [| y [| z d1]]; [discriminate | discriminate | destruct d1; discriminate].
    + eapply dc_cons; [| apply dc_nil]. apply (st_hex E1 []). discriminate.
    + match goal with |- hidden _ _ _ _ _ ?x ?c => replace c with (rc4 (okS 4) x) by (vm_compute; reflexivity) end. apply hides. assumption.
    + vm_compute. reflexivity.
  - apply (so_plain E1 kS schemeS). sl.
Qed.
Lemma sealedV : sealed_updates E1 VS WS prS pwS.
Proof.
  split; [exact layW |]. exists encS, (Some 5), schemeS. split.
  { assert (I : In (obj_of 5 (ODict encS) None) (living VS)) by (vm_compute; tauto). exact (ee_object (living VS) encS (obj_of 5 (ODict encS) None) 0 I eq_refl eq_refl). }
  split.
  { split; try reflexivity; try (eexists; split; reflexivity); try (exists []; reflexivity); [| left; split; reflexivity].
    right. split; [right; split; [reflexivity |]; split; [reflexivity |]; exists cfS; split; [left; reflexivity |] | exists 128; split; [left; eexists; split; reflexivity | split; [lia | reflexivity]]].
    split; [dist |]. intros k o [Q | []]. injection Q as <- <-. do 2 eexists. split; [reflexivity |]. split; [reflexivity |]. left. exists 16. split; [eexists; split; reflexivity | lia]. }
  split; [exact userS |]. split.
  { split; [left; exists (lit "B"); split; [reflexivity | exact namedS_b] |]. split; [left; exists (lit "B"); split; [reflexivity | exact namedS_b] |].
    split; [right; split; reflexivity |]. intros k m [-> ->]. exact namedS_identity. }
  split; [split; [discriminate |]; split; [discriminate |]; split; [discriminate | intros k [_ Q]; discriminate Q] |].
  split; [split; [discriminate |]; split; [discriminate | reflexivity] |].
  change (pr_n prS) with 16%nat. rewrite keyS.
  constructor; [exact (conj eq_refl (conj eq_refl forall2_S)) |]. constructor; [exact (conj eq_refl (conj eq_refl forall2_V1)) |]. constructor; [exact (conj eq_refl (conj eq_refl (Forall2_nil _))) | constructor].
Qed.
Definition SUC_ops : list op := fst (parse E1 OD1 40 SUC pwS).
Lemma C112_ex : sealed_updates E1 VS WS prS pwS /\ (forall x, List.length (e_md5 E1 x) = 16%nat) /\ ~ user_password E1 prS (lit "shut") /\
  living VS = firstn 3 DS ++ [obj_of 5 (ODict encS) None; obj_of 4 (ODict contents) (Some (lit "BT (y) Tj ET"))] /\
  current_key (lit "Info") VS None = Some (ORef 7 0) /\ current_key (lit "Encrypt") VS None = Some (ORef 5 0).
Proof. split; [exact sealedV |]. split; [exact md5_16 |]. split; [exact not_userS |]. split; [vm_compute; reflexivity |]. split; vm_compute; reflexivity. Qed.
Lemma C112_ex_raw : order_ok OD1 /\ s_input SUC = Some (w_updated WS) /\ parse E1 OD1 40 SUC pwS = (SUC_ops, Ok PNone) /\
  content FText SUC_ops = lit "y" ++ [x0a] /\ content FURLs SUC_ops = lit "http://x.example/(a" ++ [x0a].
Proof. split; [exact OD1_ok |]. split; [reflexivity |]. split; [vm_compute; reflexivity |]. split; vm_compute; reflexivity. Qed.
Lemma VS_within : forall h, within (living VS) h -> In h (flat_map (fun o => dicts (ival o)) (living VS)).
Proof. intros h (o & I & H). apply in_flat_map. exists o. split; [exact I | apply holds_dicts; exact H]. Qed.
Lemma C112_ex_list : stored E1 (w_updated WS) pwS (living VS) /\ doc_urls 1 (living VS) = Some [lit "http://x.example/(a"] /\ direct_kids (living VS) /\ moderate_maps (living VS) /\ e_verbose E1 <> None /\ (forall f, s_create SUC f = true).
Proof.
  split; [exact (st_usealed E1 VS WS prS pwS md5_16 sealedV) |]. split; [vm_compute; reflexivity |]. split; [| split; [| split; [discriminate | reflexivity]]].
  - intros h n g H Q. apply VS_within in H. vm_compute in H. repeat (destruct H as [<- | H]; [vm_compute in Q; discriminate Q |]). exact H.
  - intros h n g o s H Q. apply VS_within in H. exfalso. vm_compute in H. repeat (destruct H as [<- | H]; [vm_compute in Q; discriminate Q |]). exact H.
Qed.
