(** ContentsEx.v -- witnesses for PropContents.v. *)
From Verif Require Import Base BaseP Msg Reader ReaderP Num Lexer Obj ReadObj Env Getters Crypt GetObj Load Tree Output Parse SpecRead SpecLook SpecTree
  FetchP LookP SecurityP FetchEx Md5 SpecFetch SpecOut StreamEx XrefEx TreeEx TreeP RawP ExtractP OutEx SpecSource SourceP AttachP SourceEx
  SpecLex SpecObj ReadEx SpecText SpecPage TextEx PageP SpecPages PagesP PagesEx SpecContents.
From Coq Require Import Strings.String Sorting.Permutation.

(** A document of one page. *)
Definition leaf : bytes := lit "1 0 obj<</Pages 2 0 R>> endobj 2 0 obj<</Contents 3 0 R>> endobj 3 0 obj" ++ PagesEx.strm "BT(x)Tj ET" ++ lit " endobj ".
Definition S8 : sys := mksys (Some leaf) (fun _ => true) StatNotExist.
Definition leaf_p : pst := match load 30 E1 (fun l => l) leaf [] (new_parser leaf) with Ok (_, p) => p | _ => nothing end.
Definition leaf_ops : list op := fst (parse E1 OD1 30 S8 []).
Definition page2 : dict := [(lit "Contents", ref 3)].
Lemma leaf_offsets : offsets_ok (pxref leaf_p).
Proof.
  intros n e H T. unfold xget in H. remember (pxref leaf_p) as x eqn:Q. vm_compute in Q. subst x. cbn [mget] in H.
  repeat match type of H with (if ?c then _ else _) = _ => destruct c; [injection H as <-; cbn; lia|] end. discriminate.
Qed.
Lemma leaf_only : forall h, of_document E1 leaf leaf_p h -> h = cat1 \/ h = page2 \/ h = [].
Proof.
  intros h (n & o & d & (e & X & T) & F & V & H). unfold xget in X. remember (pxref leaf_p) as x eqn:Q. vm_compute in Q. subst x. cbn [mget] in X.
  assert (K : o = plain 1 (ODict cat1) \/ o = plain 2 (ODict page2) \/ o = strobj 3 (lit "BT(x)Tj ET")).
  { destruct (Z.eqb n 1) eqn:B1; [apply Z.eqb_eq in B1; subst n; left; eapply fetched_det; [exact F |]; exists 9%nat; eexists; vm_compute; reflexivity |].
    destruct (Z.eqb n 2) eqn:B2; [apply Z.eqb_eq in B2; subst n; right; left; eapply fetched_det; [exact F |]; exists 9%nat; eexists; vm_compute; reflexivity |].
    destruct (Z.eqb n 3) eqn:B3; [apply Z.eqb_eq in B3; subst n; right; right; eapply fetched_det; [exact F |]; exists 9%nat; eexists; vm_compute; reflexivity |]. discriminate. }
  destruct K as [-> | [-> | ->]]; cbn in V; injection V as <-; apply holds_inv in H; destruct H as [-> | (k & x & I & H)]; auto;
    repeat destruct I as [I | I]; try injection I as <- <-; try destruct I; apply holds_inv in H; destruct H.
Qed.
Lemma page2_fonts : fonts_of E1 leaf leaf_p page2 fs0.
Proof. exists []. split; [apply no_dict; reflexivity | apply fonts_none; reflexivity]. Qed.
Lemma page2_stream : referred E1 leaf leaf_p (entry page2 (lit "Contents")) (lit "BT(x)Tj ET").
Proof. refd 3 (lit "BT(x)Tj ET"). Qed.
Lemma leaf_well : forall h page s, of_document E1 leaf leaf_p h -> page_under E1 leaf leaf_p h page -> content_stream E1 leaf leaf_p page s ->
  exists fs ls, fonts_of E1 leaf leaf_p page fs /\ stream_lines fs s ls.
Proof.
  intros h page s D PU CS. assert (RT : forall root, typed E1 leaf leaf_p is_dict (entry h (lit "Pages")) root -> root = page2).
  { intros root T. destruct (leaf_only h D) as [-> | [-> | ->]]; try (exfalso; typed_none T).
    eapply typed_det; [apply is_dict_fun | exact T |]. indirect. }
  assert (PG : page = page2).
  { destruct PU as [root T | root ks n d T A R]; [exact (RT root T) |]. rewrite (RT root T) in A.
    assert (ks = []) by (eapply array_at_det; [exact A | apply no_array; reflexivity]). subst ks. inversion R; subst; contradiction. }
  subst page. exists fs0, [lit "x"]. split; [apply page2_fonts |].
  destruct CS as [s R | a x s Q J R]; [| discriminate Q]. rewrite (referred_det _ _ _ _ _ _ R page2_stream). apply s8_lines.
Qed.
Lemma C84_ex : order_ok OD1 /\ s_input S8 = Some leaf /\ parse E1 OD1 30 S8 [] = (leaf_ops, Ok PNone) /\
  load 30 E1 (o_objects OD1) leaf [] (new_parser leaf) = Ok (None, leaf_p) /\ offsets_ok (pxref leaf_p) /\
  (forall h page s, of_document E1 leaf leaf_p h -> page_under E1 leaf leaf_p h page -> content_stream E1 leaf leaf_p page s ->
     exists fs ls, fonts_of E1 leaf leaf_p page fs /\ stream_lines fs s ls) /\
  In (OpEv (EWrite FText (lit "x"))) leaf_ops /\ of_document E1 leaf leaf_p cat1 /\ page_under E1 leaf leaf_p cat1 page2 /\ content_stream E1 leaf leaf_p page2 (lit "BT(x)Tj ET").
Proof.
  split; [apply OD1_ok |]. split; [reflexivity |]. split; [vm_compute; reflexivity |]. split; [vm_compute; reflexivity |]. split; [apply leaf_offsets |].
  split; [apply leaf_well |]. split; [vm_compute; tauto |]. split; [docd 1 cat1; apply hd_here |]. split; [apply pu_root; indirect | apply cn_stream, page2_stream].
Qed.
