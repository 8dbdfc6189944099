(** TrailerUpP.v -- where the entries of the trailer come from in documents with
    updates (C93). *)
From Verif Require Import Base BaseP Msg Reader ReaderP Num NumP Lexer Plain LexerP Obj ReadObj Bits Filters Env Getters Crypt GetObj GetObjP Regex Xref Load
  SpecLex SpecLexP SpecObj SpecObjP SpecNumP SpecRead SpecFetch SpecScan SpecXref SpecRecover SpecTrailer FetchP ReadP ReadObjP ErrorsP StreamP StreamObjP WriteP WriteDocP ScanP XrefP LoadMonoP OrderP RepairP CryptObjP DocP RecoverP WriteLoadP
  SpecWrite StrayP TrailerP SpecUpdate UpdateP UpdateLoadP UpdateFindP.
From Coq Require Import Strings.String Sorting.Permutation.

Section TrailerUp.
  Variables (E : env) (file : bytes).
  Definition source (d : dict) : Prop := trailer_dict E file d \/ exists i, old_start E file i (Some d).
  Definition from_sources (p : pst) : Prop := forall k o, entry (ptrailer p) k = Some o -> exists d, source d /\ entry d k = Some o.
  Lemma chain_source : forall fuel off secs p u p', chain E file off [] secs -> reads file p -> from_sources p -> load_xref fuel E file off [] p = Ok (u, p') -> from_sources p'.
  Proof.
    intros fuel off secs p u p' CH W FT H. destruct (chain_loaded E file (psh p) off [] secs CH) as (F0 & CL). destruct (CL (Nat.max F0 fuel) p (Nat.le_max_l _ _) W eq_refl) as (q & F7 & _ & _ & _ & TG).
    destruct (load_xref_mono fuel (Nat.max F0 fuel) (Nat.le_max_r _ _) E file off [] p) as [Q | Q]; [congruence |]. assert (q = p') by congruence. subst q.
    intros k o EN. rewrite TG in EN. destruct (newest_key k secs) as [x |] eqn:NK; [| apply FT; exact EN]. cbn in EN. destruct (chain_trailer E file off [] secs CH k o) as (d & TD & ED); [congruence |]. exists d. split; [left; exact TD | exact ED].
  Qed.
  Lemma old_step : forall i f p d, 0 <= i -> old_start E file i d -> reads file p -> exists s1 d1, load_xref (S f) E file i [] p = Ok (tt, with_trailer (mmerge bseq (ptrailer p) d1) (with_rd s1 p)) /\ NoDup (map fst d1) /\ (d1 = [] \/ d = Some d1).
  Proof.
    intros i f p d O H W.
    assert (NIL : forall s1, load_xref (S f) E file i [] p = Ok (tt, with_rd s1 p) -> exists s1 d1, load_xref (S f) E file i [] p = Ok (tt, with_trailer (mmerge bseq (ptrailer p) d1) (with_rd s1 p)) /\ NoDup (map fst d1) /\ (d1 = [] \/ d = Some d1)).
    { intros s1 R. exists s1, []. split; [rewrite R; destruct p; reflexivity |]. split; [constructor | left; reflexivity]. }
    destruct H as [SA | g t n g1 b w r Z0 G NG NT G1 N1 RG ND ET NDC | g t n g1 h N Ge r v st Z0 G NG NT G1 N1 HD BN BH NP].
    - destruct (start_step E file i f p O SA W) as (s1 & R). exact (NIL s1 R).
    - destruct (word_stray E file i g t n (g1 ++ (b :: w) ++ r) f p O) as (s1 & _ & _ & R); try assumption; [| exact (NIL s1 R)].
      right. exists g1, b, w, r. split; [reflexivity |]. split; [exact G1 |]. split; [exact N1 |]. split; [exact RG |]. split; [apply table_no_digit; exact ND |]. split; [exact ET |].
      intros q Q. destruct (p_ws_gap _ _ _ Q) as (g2 & G2 & ->). exact (NDC g2 q G2 eq_refl).
    - destruct (object_stray E file i g t n g1 h N Ge r v st f p O) as (s1 & d1 & _ & _ & C & NDD & R); try assumption. exists s1, d1. split; [exact R |]. split; [exact NDD |]. destruct C as [C | C]; [left; exact C | right; rewrite C; reflexivity].
  Qed.
  Definition settled_up (i : Z) : Prop := (exists secs, chain E file i [] secs) \/ (0 <= i /\ exists d, old_start E file i d).
  Lemma source_step : forall fuel i p u p', settled_up i -> reads file p -> from_sources p -> load_xref fuel E file i [] p = Ok (u, p') -> from_sources p'.
  Proof.
    intros fuel i p u p' [(secs & CH) | [O (d & SA)]] W FT H; [eapply chain_source; eassumption |]. destruct fuel as [| f]; [discriminate |].
    destruct (old_step i f p d O SA W) as (s1 & d1 & R & ND & C). rewrite R in H. injection H as _ <-. intros k o EN. cbn [ptrailer with_trailer with_rd] in EN. rewrite merged_key in EN by exact ND.
    destruct (entry d1 k) as [x |] eqn:Q; [| exact (FT k o EN)]. cbn in EN. destruct C as [-> | ->]; [discriminate Q |]. exists d1. split; [right; eauto | congruence].
  Qed.
  Lemma source_all : forall fuel offs p u p', Forall settled_up offs -> reads file p -> from_sources p -> load_all fuel E file offs p = Ok (u, p') -> from_sources p'.
  Proof.
    intros fuel. induction offs as [| i offs IH]; intros p u p' ST W FT H; cbn [load_all] in H; [unfold ret in H; assert (p' = p) by congruence; subst; exact FT |].
    unfold bind in H. destruct (load_xref fuel E file i [] p) as [[u1 p1]| |] eqn:L; try discriminate. inversion ST as [| ? ? S1 S2]; subst.
    destruct (holds_load_xref file fuel E i [] p u1 p1 W L) as [W1 _]. eapply IH; [exact S2 | exact W1 | exact (source_step fuel i p u1 p1 S1 W FT L) | exact H].
  Qed.
End TrailerUp.
Theorem trailers_or_first : forall E fuel ord file pw r p is, (2 <= fuel)%nat -> (forall m, Permutation (ord m) m) -> load fuel E ord file pw (new_parser file) = Ok (r, p) ->
  (forall i, starts (fun t => t = lit "xref") file i -> (exists secs, chain E file i [] secs) \/ exists d, old_start E file i d) ->
  (forall off, last_start (last256 file) off -> off < 2 ^ 63 -> exists secs, chain E file off [] secs) ->
  only_at file is -> (forall k, In k is -> (exists o, object_at E file k o) \/ ((exists n, header_at file k n) /\ exists secs, chain E file k [] secs)) ->
  forall k o, entry (ptrailer p) k = Some o -> exists d, (trailer_dict E file d \/ exists i, old_start E file i (Some d)) /\ entry d k = Some o.
Proof.
  intros E fuel ord file pw r p is F P H XR ST ON OB. change (from_sources E file p). unfold load in H. unfold bind at 1 in H.
  destruct (find_objects_records E file (new_parser file) fuel (open_wf file) eq_refl F) as (l & os & p1 & F1 & SC & RC & W1 & X1 & T1 & S1 & ND). rewrite F1 in H. unfold bind at 1 in H.
  destruct (pseek file (zlen file) p1) as [[u p2]| |] eqn:F2; try discriminate. unfold bind at 1 in H.
  destruct (holds_pseek file _ _ _ _ W1 F2) as [W2 S2].
  destruct (load_all fuel E file _ p2) as [[[] p3]| |] eqn:F3; try discriminate. unfold bind at 1 in H.
  destruct (holds_load_all file _ _ _ _ _ _ W2 F3) as [W3 S3].
  destruct (repair_any_order file (ord os) os p3 W3 ND (P os)) as (p4 & F4 & W4 & T4 & S4 & C4 & _). rewrite F4 in H.
  assert (FT : from_sources E file p3).
  { eapply source_all; [| exact W2 | | exact F3].
    - apply Forall_forall. intros i I. unfold xref_offsets in I. apply in_app_or in I. destruct I as [I | I].
      + apply (proj1 (sortZ_In _ _)) in I. apply in_app_or in I. destruct I as [I | I].
        * apply (proj2 (xref_positions file)) in I. destruct (XR i I) as [C | C]; [left; exact C | right; split; [destruct I as [B _]; lia | exact C]].
        * apply in_map_iff in I. destruct I as ([n e] & <- & I). apply filter_In in I. destruct I as [I SM]. cbn [snd] in *.
          assert (HA : forall k, In k is -> exists n, header_at file k n) by (intros k K; destruct (OB k K) as [(o & OA) | [HA _]]; [exists (inum o); eapply object_header_at; exact OA | exact HA]).
          specialize (RC n). rewrite ((In_mget Z.eqb Zeqb_ok n e os ND I : xget n os = Some e)) in RC. destruct RC as (l1 & i & j & l2 & -> & ME & _). rewrite (me_off _ _ _ _ ME).
          assert (II : In i is) by (apply (scan_headers file is _ HA ON SC); rewrite map_app; apply in_or_app; right; left; reflexivity).
          destruct (OB i II) as [(o & OA) | [_ C]]; [exfalso | left; exact C]. destruct (entry_of_object _ _ _ _ _ _ OA ME) as [_ Q2]. rewrite Q2 in SM. discriminate.
      + destruct (start_xref_offset file) as [off |] eqn:SO; [| destruct I]. destruct I as [<- | []]. left. apply start_offset in SO. apply ST; tauto.
    - intros k o EN. unfold pseek in F2. assert (p2 = with_rd (seek file (zlen file) (prd p1)) p1) by congruence. subst p2. cbn [ptrailer with_rd] in EN. rewrite T1 in EN. discriminate. }
  intros k o EN. apply FT. rewrite <- T4.
  destruct (dget (lit "Encrypt") (ptrailer p4)) as [enc |] eqn:DE; [| assert (p = p4) by congruence; subst; exact EN].
  unfold bind in H. destruct (exempt_encrypt enc p4) as [[u5 p5]| |] eqn:F5; try discriminate.
  destruct (exempt_same file enc p4 u5 p5 0 F5 W4) as [W5 _]. destruct (set_password_sparing _ _ _ _ _ _ _ W5 H) as (_ & _ & Tp).
  rewrite Tp, (proj1 (exempt_trailer _ _ _ _ F5)) in EN. exact EN.
Qed.

(** ** Written documents with updates are of this kind *)
Lemma chain_up : forall E rs, lay_updates rs -> forall L1 x L2, w_layout (zlen w_version) None rs = L1 ++ x :: L2 -> forall seen, (forall q, In q seen -> table_pos x < q) ->
  chain E (w_updated rs) (table_pos x) seen (secs_to (L1 ++ [x])).
Proof.
  intros E rs GU. induction L1 as [| y L1 IH] using rev_ind; intros [[o q] r] L2 QL seen SN.
  all: assert (I : In (o, q, r) (w_layout (zlen w_version) None rs)) by (rewrite QL; apply in_or_app; right; left; reflexivity).
  all: destruct (table_data rs GU o q r I) as (g0 & g1 & T & g2 & t & z & Z0 & G0 & G1 & N1 & TT & G2 & OT & BK & PV).
  all: pose proof (table_nonneg o r (pw_off _ _ _ (lay_ok rs GU _ I))) as TN.
  all: assert (NI : ~ In (w_table_at o r) seen) by (intros K; apply SN in K; unfold table_pos in K; cbn [fst snd] in K; lia).
  all: destruct (layout_split _ _ _ _ _ _ _ _ QL) as (rs1 & rs2 & a & _ & _ & _ & _ & CS).
  all: assert (SA : section_at E (w_updated rs) (w_table_at o r) (u_section (o, q, r)) q) by (unfold u_section; cbn [fst snd]; eapply at_table; eassumption).
  all: unfold table_pos; cbn [fst snd].
  - destruct CS as [(_ & _ & _ & ->) | (? & L' & ? & ? & ? & _ & _ & QX & _)]; [| destruct L'; discriminate QX]. apply ch_last; assumption.
  - destruct CS as [(QX & _) | (a' & L' & o' & q' & r' & _ & _ & QX & -> & LT)]; [destruct L1; discriminate QX |]. apply app_inj_tail in QX. destruct QX as [<- ->].
    assert (QL2 : w_layout (zlen w_version) None rs = L1 ++ (o', q', r') :: (o, Some (w_table_at o' r'), r) :: L2) by (rewrite QL; apps; reflexivity).
    assert (LT2 : w_table_at o' r' < w_table_at o r) by (unfold w_table_at at 2; pose proof (zlen_nonneg _ (w_objects (rv_objects r))); lia).
    assert (QS : secs_to ((L1 ++ [(o', q', r')]) ++ [(o, Some (w_table_at o' r'), r)]) = u_section (o, Some (w_table_at o' r'), r) :: secs_to (L1 ++ [(o', q', r')])) by (unfold secs_to; rewrite (map_app _ (L1 ++ _)), rev_app_distr; reflexivity).
    rewrite QS. eapply ch_prev; [exact NI | exact SA |]. apply (IH (o', q', r') _ QL2). unfold table_pos. cbn [fst snd]. intros c [<- | K]; [exact LT2 |]. apply SN in K. unfold table_pos in K. cbn [fst snd] in K. lia.
Qed.
Lemma start_up : forall E rs, good_updates rs -> forall x, In x (w_layout (zlen w_version) None rs) -> exists d, old_start E (w_updated rs) (start_pos x) d.
Proof.
  intros E rs GU [[o q] r] I. pose proof (lay_ok rs (good_lays rs GU) _ I) as PW. unfold laid_well in PW. cbn [fst snd] in PW. pose proof (table_nonneg o r (pw_off _ _ _ PW)) as TN.
  apply in_split in I. destruct I as (L1 & L2 & QL). destruct (layout_split _ _ _ _ _ _ _ _ QL) as (rs1 & rs2 & a & Qrs & QR & QL2 & QO & _). set (o2 := o + zlen (w_revision o q r)) in *. set (q2 := Some (w_table_at o r)) in *.
  assert (Z0 : zdrop (start_pos (o, q, r)) (w_updated rs) = lit "xref" ++ w_last (w_table_at o r) ++ w_revisions o2 q2 rs2).
  { unfold w_updated. rewrite QR, revision_parts. unfold w_rtail. set (mid := w_mid _ _ _).
    match goal with |- zdrop _ ?x = ?y => replace x with ((w_version ++ a ++ w_objects (rv_objects r) ++ lit "xref" ++ mid) ++ y) by (apps; reflexivity) end.
    replace (start_pos (o, q, r)) with (zlen (w_version ++ a ++ w_objects (rv_objects r) ++ lit "xref" ++ mid)); [apply zdrop_app |]. unfold start_pos, table_pos, w_table_at. cbn [fst snd]. fold mid. rewrite !zlen_app. change (zlen (lit "xref")) with 4. lia. }
  set (T := w_table_at o r) in *. set (G := x0a :: lit "%%EOF" ++ [x0a]).
  assert (Z1 : zdrop (start_pos (o, q, r)) (w_updated rs) = lit "xref" ++ [x0a] ++ dec T ++ G ++ w_revisions o2 q2 rs2) by (rewrite Z0; unfold w_last, G; apps; reflexivity).
  assert (GG : gap G). { unfold G. apply gap_ws; [exact lf_ws |]. change (gap ("%"%byte :: lit "%EOF" ++ x0a :: [])). apply gap_comment; [| left; reflexivity | constructor]. intros b K [-> | ->]; vm_compute in K; intuition discriminate. }
  destruct rs2 as [| r2 rs2].
  - exists None. apply os_end. exists [x0a], (dec T), T, G. split; [rewrite Z1; cbn [w_revisions]; rewrite app_nil_r; reflexivity |]. split; [apply gap1, lf_ws |]. split; [discriminate |]. split; [apply dec_text; exact TN | exact (blank_gap _ GG)].
  - cbn [w_revisions] in Z1. rewrite revision_parts in Z1. set (R := w_revisions _ _ rs2) in Z1.
    assert (I2 : In (o2, q2, r2) (w_layout (zlen w_version) None rs)) by (rewrite QL, QL2; apply in_or_app; right; right; left; reflexivity).
    pose proof (lay_ok rs (good_lays rs GU) _ I2) as PW2. unfold laid_well in PW2. cbn [fst snd] in PW2.
    destruct (rv_objects r2) as [| ob D] eqn:QD.
    + cbn [w_objects flat_map app] in Z1. unfold w_rtail in Z1. set (mid := w_mid _ _ _) in Z1.
      assert (QM : exists m, mid = x0a :: "0"%byte :: m) by (unfold mid, w_mid, w_entries; cbn [app]; eexists; reflexivity). destruct QM as [m QM].
      exists None. eapply (os_word E (w_updated rs) _ [x0a] (dec T) T G "x"%byte (lit "ref")); [rewrite Z1, QM; apps; reflexivity | apply gap1, lf_ws | discriminate | apply dec_text; exact TN | exact GG | discriminate | intros c K; apply word_regular; cbn in K; intuition (subst; reflexivity) | intros d K; apply decdigit_spec in K; destruct K as [K _]; vm_compute in K; discriminate K | apply ws_ends, lf_ws |].
      intros g2 z Gz Q. destruct Gz as [| b0 g0 W0 G0 | c e g0 _ _ _]; [discriminate Q | | discriminate Q]. injection Q as <- Q. destruct G0 as [| b1 g1 W1 G1 | c e g1 _ _ _]; [discriminate Q | | discriminate Q]. injection Q as <- _. vm_compute in W1. intuition discriminate.
    + assert (Go : good_object ob) by (apply (gr_objects r2 (gu_revisions _ GU r2 ltac:(rewrite Qrs; apply in_or_app; right; right; left; reflexivity))); rewrite QD; left; reflexivity).
      assert (HA : harmless r2) by (apply (gu_harmless _ GU (rs1 ++ [r]) r2 rs2); [rewrite Qrs; apps; reflexivity | destruct rs1; discriminate]).
      eexists. eapply (os_object E (w_updated rs) _ [x0a] (dec T) T G (w_head ob) (inum ob) (igen ob) (x0a :: w_value ob ++ x0a :: lit "endobj" ++ x0a :: w_objects D ++ w_rtail o2 q2 r2 ++ R) (ival (as_written ob)) (istream (as_written ob))).
      * rewrite Z1. unfold w_objects. cbn [flat_map]. unfold w_object at 1. apps. reflexivity.
      * apply gap1, lf_ws.
      * discriminate.
      * apply dec_text. exact TN.
      * exact GG.
      * discriminate.
      * apply head_header, go_lay. exact Go.
      * pose proof (lo_number _ (go_lay _ Go)). lia.
      * apply written_behind. exact Go.
      * intros d Qd. destruct (lay_entry ob d (lit "Prev") (go_lay _ Go) Qd ltac:(discriminate)) as (d0 & Q0 & ->). apply no_entry. exact (proj1 (HA ob D d0 QD Q0)).
Qed.
Lemma updates_settled : forall E rs, good_updates rs -> exists is,
  (forall i, starts (fun t => t = lit "xref") (w_updated rs) i -> (exists secs, chain E (w_updated rs) i [] secs) \/ exists d, old_start E (w_updated rs) i d) /\
  (forall off, last_start (last256 (w_updated rs)) off -> off < 2 ^ 63 -> exists secs, chain E (w_updated rs) off [] secs) /\
  only_at (w_updated rs) is /\
  (forall k, In k is -> (exists o, object_at E (w_updated rs) k o) \/ ((exists n, header_at (w_updated rs) k n) /\ exists secs, chain E (w_updated rs) k [] secs)).
Proof.
  intros E rs GU. exists (map fst (all_places (w_layout (zlen w_version) None rs))). split; [| split; [| split]].
  - intros i ST. apply (proj2 (xref_positions _)) in ST. apply (xrefs_only rs (good_lays rs GU)) in ST. destruct ST as (x & I & [-> | ->]); [| right; apply start_up; assumption].
    left. apply in_split in I. destruct I as (L1 & L2 & QL). eexists. eapply chain_up; [exact (good_lays rs GU) | exact QL | intros q []].
  - intros off LS B. assert (SO : start_xref_offset (w_updated rs) = Some off) by (apply start_offset; auto).
    destruct (exists_last (l := w_layout (zlen w_version) None rs)) as (L & x & QL); [intros Q; apply (gu_some _ GU); apply length_zero_iff_nil; rewrite <- (layout_length rs (zlen w_version) None), Q; reflexivity |].
    pose proof (start_last rs (good_lays rs GU) L x QL) as S1. assert (off = table_pos x) by congruence. subst off. eexists. eapply chain_up; [exact (good_lays rs GU) | exact QL | intros q []].
  - apply updated_markers, good_lays. exact GU.
  - intros k I. apply in_map_iff in I. destruct I as ([k' o] & Q & I). cbn in Q. subst k'. left. exists (as_written o). apply updated_object; assumption.
Qed.
