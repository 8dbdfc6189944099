(** TrailerP.v -- where the entries of the trailer come from (C93). *)
From Verif Require Import Base BaseP Msg Reader ReaderP Num NumP Lexer Plain LexerP Obj ReadObj Bits Filters Env Getters Crypt GetObj GetObjP Regex Xref Load
  SpecLex SpecLexP SpecObj SpecObjP SpecNumP SpecRead SpecFetch SpecScan SpecXref SpecRecover SpecTrailer FetchP ReadP ReadObjP ErrorsP StreamP StreamObjP WriteP WriteDocP ScanP XrefP LoadMonoP OrderP RepairP CryptObjP DocP RecoverP WriteLoadP.
From Coq Require Import Strings.String Sorting.Permutation.

Section Trailer.
  Variables (E : env) (file : bytes).
  Definition from_trailers (p : pst) : Prop := forall k o, entry (ptrailer p) k = Some o -> exists d, trailer_dict E file d /\ entry d k = Some o.
  Lemma section_trailer : forall off s pv, section_at E file off s pv -> trailer_dict E file (sc_trailer s).
  Proof.
    intros off s pv [g0 g1 T secs g2 t d r pv' O Z0 G0 G1 N1 TT G2 OT B PV | n g b d data w ps l pv' SA WO IX SL PV]; cbn [sc_trailer].
    - apply (td_table E file (off + zlen (g0 ++ lit "xref" ++ g1 ++ T)) g2 t d r); [pose proof (zlen_nonneg _ (g0 ++ lit "xref" ++ g1 ++ T)); lia | | exact G2 | exact OT].
      rewrite <- zdrop_zdrop by (lia || apply zlen_nonneg). rewrite Z0.
      replace (g0 ++ lit "xref" ++ g1 ++ T ++ lit "trailer" ++ g2 ++ t ++ r) with ((g0 ++ lit "xref" ++ g1 ++ T) ++ lit "trailer" ++ g2 ++ t ++ r) by (rewrite <- !app_assoc; reflexivity). apply zdrop_app.
    - eapply td_stream; eassumption.
  Qed.
  Lemma chain_trailer : forall off seen secs, chain E file off seen secs -> forall k o, newest_key k secs = Some o -> exists d, trailer_dict E file d /\ entry d k = Some o.
  Proof.
    intros off seen secs H. induction H as [off seen I | off seen NA | off seen s NI SA | off seen s pv l NI SA CH IH]; intros k o N; cbn [newest_key] in N; try discriminate.
    - destruct (entry (sc_trailer s) k) eqn:EN; [| discriminate]. exists (sc_trailer s). split; [eapply section_trailer; exact SA | congruence].
    - destruct (entry (sc_trailer s) k) eqn:EN; [exists (sc_trailer s); split; [eapply section_trailer; exact SA | congruence] | apply IH; exact N].
  Qed.
  Lemma chain_from : forall fuel off secs p u p', chain E file off [] secs -> reads file p -> from_trailers p -> load_xref fuel E file off [] p = Ok (u, p') -> from_trailers p'.
  Proof.
    intros fuel off secs p u p' CH W FT H. destruct (chain_loaded E file (psh p) off [] secs CH) as (F0 & CL). destruct (CL (Nat.max F0 fuel) p (Nat.le_max_l _ _) W eq_refl) as (q & F7 & _ & _ & _ & TG).
    destruct (load_xref_mono fuel (Nat.max F0 fuel) (Nat.le_max_r _ _) E file off [] p) as [Q | Q]; [congruence |]. assert (q = p') by congruence. subst q.
    intros k o EN. rewrite TG in EN. destruct (newest_key k secs) as [x |] eqn:NK; [| apply FT; exact EN]. cbn in EN. eapply chain_trailer; [exact CH | congruence].
  Qed.
  (** the end of the last startxref changes nothing *)
  Lemma start_step : forall i f p, 0 <= i -> start_at file i -> reads file p -> exists s1, load_xref (S f) E file i [] p = Ok (tt, with_rd s1 p).
  Proof.
    intros i f p O (g & t & n & r & Z0 & G & NG & NT & B) W. cbn [load_xref zmem existsb]. cbv zeta.
    unfold bind at 1. unfold pseek at 1. unfold bind at 1. unfold onrd at 1. cbn [prd with_rd].
    set (s0 := seek file i (prd p)). pose proof (sk_nonneg file i (prd p) O) as S0. fold s0 in S0. set (e := i + zlen (zdrop i file)) in S0. clearbody e. rewrite Z0 in S0.
    destruct (read_word_text file s0 [] "x"%byte (lit "ref") (g ++ t ++ r) e (log (prd p)) gap_nil) as (s1 & R1 & S1).
    { intros c I. apply word_regular; cbn in I; intuition (subst; reflexivity). }
    { apply ne_gap_ends; assumption. }
    { exact S0. }
    rewrite R1. change (bseq ("x"%byte :: lit "ref") (lit "xref")) with true. cbv iota beta.
    unfold bind at 1. unfold onrd at 1. cbn [prd with_rd].
    assert (ND : no_digit r).
    { destruct B as [g' G' | g' c G' NC]; [rewrite <- (app_nil_r g'); apply gap_no_digit; [exact G' | exact Logic.I] | apply gap_no_digit; [exact G' | reflexivity]]. }
    destruct (read_int_text file s1 g t n r e (log (prd p)) G NT ND S1) as (s2 & R2 & S2).
    destruct (read_int_eof file s2 _ _ _ S2) as (s3 & R3 & S3 & L3); [apply blank_spec; exact B |].
    unfold read_xref_table. cbn [table_sections]. rewrite R2, R3. cbv iota beta.
    unfold bind at 1. unfold onrd at 1. cbn [prd with_rd].
    destruct (read_keyword_sim file s3 _ _ _ S3) as (s4 & R4 & S4). rewrite R4. pose proof (p_keyword_len (rest s3)) as L4.
    unfold bind at 1. unfold onrdr at 1. cbn [prd with_rd]. destruct S4 as (W4 & E4 & _ & G4). rewrite <- E4 in L4.
    destruct (ReadDictionary_cases file no_decryptor s4 W4 no_decent) as [(r' & PR & _) | (_ & s5 & R5 & W5 & G5)].
    { exfalso. pose proof (proj1 (p_ws_len (rest s4))) as L5. rewrite PR in L5. cbn in L5. lia. }
    rewrite R5. exists s5. destruct p as [x1 x2 x3 x4]. reflexivity.
  Qed.
  Definition settled (i : Z) : Prop := (exists secs, chain E file i [] secs) \/ (0 <= i /\ start_at file i).
  Lemma settled_step : forall fuel i p u p', settled i -> reads file p -> from_trailers p -> load_xref fuel E file i [] p = Ok (u, p') -> from_trailers p'.
  Proof.
    intros fuel i p u p' [(secs & CH) | [O SA]] W FT H; [eapply chain_from; eassumption |]. destruct fuel as [| f]; [discriminate |].
    destruct (start_step i f p O SA W) as (s1 & R). rewrite R in H. assert (p' = with_rd s1 p) by congruence. subst. exact FT.
  Qed.
  Lemma settled_all : forall fuel offs p u p', Forall settled offs -> reads file p -> from_trailers p -> load_all fuel E file offs p = Ok (u, p') -> from_trailers p'.
  Proof.
    intros fuel. induction offs as [| i offs IH]; intros p u p' ST W FT H; cbn [load_all] in H; [unfold ret in H; assert (p' = p) by congruence; subst; exact FT |].
    unfold bind in H. destruct (load_xref fuel E file i [] p) as [[u1 p1]| |] eqn:L; try discriminate. inversion ST as [| ? ? S1 S2]; subst.
    destruct (holds_load_xref file fuel E i [] p u1 p1 W L) as [W1 _]. eapply IH; [exact S2 | exact W1 | exact (settled_step fuel i p u1 p1 S1 W FT L) | exact H].
  Qed.
End Trailer.
Lemma insertZ_In : forall x l y, In y (insertZ x l) <-> y = x \/ In y l.
Proof.
  intros x l y. induction l as [| z l IH]; cbn [insertZ]; [cbn; intuition congruence |]. destruct (x <=? z); cbn [In]; [intuition congruence |]. rewrite IH. intuition congruence.
Qed.
Lemma sortZ_In : forall l y, In y (sortZ l) <-> In y l.
Proof. intros l y. induction l as [| x l IH]; cbn [sortZ fold_right]; [tauto |]. rewrite insertZ_In. fold (sortZ l). rewrite IH. cbn [In]. intuition congruence. Qed.

Theorem trailers_only : forall E fuel ord file pw r p is, (2 <= fuel)%nat -> (forall m, Permutation (ord m) m) -> load fuel E ord file pw (new_parser file) = Ok (r, p) ->
  (forall i, starts (fun t => t = lit "xref") file i -> (exists secs, chain E file i [] secs) \/ start_at file i) ->
  (forall off, last_start (last256 file) off -> off < 2 ^ 63 -> exists secs, chain E file off [] secs) ->
  only_at file is -> (forall k, In k is -> (exists o, object_at E file k o) \/ ((exists n, header_at file k n) /\ exists secs, chain E file k [] secs)) ->
  forall k o, entry (ptrailer p) k = Some o -> exists d, trailer_dict E file d /\ entry d k = Some o.
Proof.
  intros E fuel ord file pw r p is F P H XR ST ON OB. change (from_trailers E file p). unfold load in H. unfold bind at 1 in H.
  destruct (find_objects_records E file (new_parser file) fuel (open_wf file) eq_refl F) as (l & os & p1 & F1 & SC & RC & W1 & X1 & T1 & S1 & ND). rewrite F1 in H. unfold bind at 1 in H.
  destruct (pseek file (zlen file) p1) as [[u p2]| |] eqn:F2; try discriminate. unfold bind at 1 in H.
  destruct (holds_pseek file _ _ _ _ W1 F2) as [W2 S2].
  destruct (load_all fuel E file _ p2) as [[[] p3]| |] eqn:F3; try discriminate. unfold bind at 1 in H.
  destruct (holds_load_all file _ _ _ _ _ _ W2 F3) as [W3 S3].
  destruct (repair_any_order file (ord os) os p3 W3 ND (P os)) as (p4 & F4 & W4 & T4 & S4 & C4 & _). rewrite F4 in H.
  assert (FT : from_trailers E file p3).
  { eapply settled_all; [| exact W2 | | exact F3].
    - apply Forall_forall. intros i I. unfold xref_offsets in I. apply in_app_or in I. destruct I as [I | I].
      + apply (proj1 (sortZ_In _ _)) in I. apply in_app_or in I. destruct I as [I | I].
        * apply (proj2 (xref_positions file)) in I. destruct (XR i I) as [C | C]; [left; exact C | right; split; [destruct I as [B _]; lia | exact C]].
        * apply in_map_iff in I. destruct I as ([n e] & <- & I). apply filter_In in I. destruct I as [I SM]. cbn [snd] in *.
          assert (HA : forall k, In k is -> exists n, header_at file k n) by (intros k K; destruct (OB k K) as [(o & OA) | [HA _]]; [exists (inum o); eapply object_header_at; exact OA | exact HA]).
          specialize (RC n). rewrite ((In_mget Z.eqb Zeqb_ok n e os ND I : xget n os = Some e)) in RC. destruct RC as (l1 & i & j & l2 & -> & ME & _). rewrite (me_off _ _ _ _ ME).
          assert (II : In i is) by (apply (scan_headers file is _ HA ON SC); rewrite map_app; apply in_or_app; right; left; reflexivity).
          destruct (OB i II) as [(o & OA) | [_ C]]; [exfalso | left; exact C]. destruct (entry_of_object _ _ _ _ _ _ OA ME) as [_ Q2]. rewrite Q2 in SM. discriminate.
      + destruct (start_xref_offset file) as [off |] eqn:SO; [| destruct I]. destruct I as [<- | []]. left. apply start_offset in SO. apply ST; tauto.
    - intros k o EN. unfold pseek in F2. assert (p2 = with_rd (seek file (zlen file) (prd p1)) p1) by congruence. subst p2. cbn [ptrailer with_rd] in EN. rewrite T1 in EN. discriminate. }
  intros k o EN. apply FT. rewrite <- T4.
  destruct (dget (lit "Encrypt") (ptrailer p4)) as [enc |] eqn:DE; [| assert (p = p4) by congruence; subst; exact EN].
  unfold bind in H. destruct (exempt_encrypt enc p4) as [[u5 p5]| |] eqn:F5; try discriminate.
  destruct (exempt_same file enc p4 u5 p5 0 F5 W4) as [W5 _]. destruct (set_password_sparing _ _ _ _ _ _ _ W5 H) as (_ & _ & Tp).
  rewrite Tp, (proj1 (exempt_trailer _ _ _ _ F5)) in EN. exact EN.
Qed.
