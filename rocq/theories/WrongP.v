(** WrongP.v -- what Load finds in a document whose offsets are wrong (C114) or
    that does not end at the end of the file (C115). *)
From Verif Require Import Base BaseP Msg Reader ReaderP Num NumP Lexer Plain LexerP Obj ReadObj Bits Filters Env Getters Crypt GetObj GetObjP Regex Xref Load SpecLex SpecLexP SpecObj SpecObjP SpecNumP SpecFilters FiltersP
  SpecRead SpecFetch SpecLook SpecStream SpecScan RegexP ScanP StreamP StreamObjP CryptObjP ReadP StreamEx RepairP FetchP SpecOut SpecXref XrefP SpecRecover RecoverP ReadObjP ErrorsP LoadMonoP FuelP Errors Extract Output Parse SpecPage OrderP RawP LookP AlongP LoadInvP DocP SpecWrite WriteP WriteDocP WriteLoadP WriteOutP SpecWrong.
From Coq Require Import Strings.String Sorting.Permutation Sorting.Sorted.

(** ** A place without a section *)
Lemma nothing_there : forall E file off f p, 0 <= off -> no_section file off -> reads file p -> exists s1, wf file s1 /\ log s1 = log (prd p) /\
  load_xref (S f) E file off [] p = Ok (tt, with_rd s1 p).
Proof.
  intros E file off f p O [NX NH] W. cbn [load_xref zmem existsb]. cbv zeta.
  unfold bind at 1. unfold pseek at 1. unfold bind at 1. unfold onrd at 1. cbn [prd with_rd].
  set (s0 := seek file off (prd p)). pose proof (sk_nonneg file off (prd p) O) as S0. fold s0 in S0. destruct (read_keyword_sim file s0 _ _ _ S0) as (s1 & R1 & S1). rewrite R1.
  destruct (bseq (fst (p_keyword (zdrop off file))) (lit "xref")) eqn:K.
  { exfalso. apply bseq_eq in K. unfold p_keyword in K. destruct (p_kw_inv (p_ws (zdrop off file))) as (r & Er & _ & ET & _). rewrite K in Er. destruct (p_ws_gap _ _ _ Er) as (g & G & Q). exact (NX g r Q G ET). }
  unfold bind at 1. unfold pseek at 1. unfold bind at 1. unfold onrd at 1. cbn [prd with_rd].
  set (s2 := seek file off s1). assert (W1 : wf file s1) by apply S1. assert (W2 : wf file s2) by (apply seek_wf; exact W1).
  assert (P2 : pos s2 = off) by (unfold s2, seek; rewrite (proj2 (Z.ltb_ge off 0) O); reflexivity).
  assert (L2 : log s2 = log (prd p)). { unfold s2. rewrite seek_log. apply S1. }
  pose proof (header_plain file s2 W2) as (W3 & L3 & _). pose proof (header_whole file s2) as HW. rewrite P2 in HW.
  destruct (read_object_header s2) as [[[n g] ok] s3]. cbn [snd] in W3, L3. destruct ok; [exfalso; destruct (HW n g s3 W2 eq_refl) as [m HM]; exact (NH m HM) |].
  exists s3. split; [exact W3 |]. split; [congruence |]. destruct p as [x1 x2 x3 x4]. reflexivity.
Qed.

(** ** The bytes behind *)
Lemma quiet_nil : quiet_end [].
Proof.
  split; [apply occurs_check; reflexivity | apply occurs_check; reflexivity | | apply occurs_check; reflexivity].
  intros n (g & t & k & r & Q & _ & T & _). apply nat_text_nonnil in T. symmetry in Q. apply app_eq_nil in Q. destruct Q as [_ Q]. apply app_eq_nil in Q. destruct Q as [Q _]. exact (T Q).
Qed.
Lemma quiet_calm : forall K, ~ occurs (lit "obj") K -> calm (x20 :: K).
Proof. intros K N u w v Q. exfalso. apply N. destruct u as [| a u]; cbn [app] in Q; injection Q as _ Q; [exists [], v | exists (u ++ [w]), v]; rewrite Q; apps; reflexivity. Qed.
Lemma p_ws_suffix : forall l, exists u, l = u ++ p_ws l.
Proof. intros l. destruct (p_ws l) as [| b q] eqn:Q; [exists l; rewrite app_nil_r; reflexivity |]. destruct (p_ws_gap _ _ _ Q) as (g & _ & QG). exists g. exact QG. Qed.
Lemma p_int_suffix : forall l, exists u, l = u ++ snd (p_int l).
Proof.
  intros l. destruct (p_int l) as [[v ok] t] eqn:Q. cbn [snd]. destruct ok.
  - destruct (p_int_inv _ _ _ Q) as (g & d & k & _ & _ & E & _). exists (g ++ d). rewrite E. apps. reflexivity.
  - unfold p_int in Q. destruct (p_ws_suffix l) as (u & U). destruct (p_ws l) as [| b q]; [injection Q as _ <-; exists u; exact U |]. destruct (is_digit b); [destruct (p_digits _ q); discriminate Q |]. injection Q as _ <-. exists u. exact U.
Qed.
Lemma p_keyword_suffix : forall l, exists u, l = u ++ snd (p_keyword l).
Proof. intros l. destruct (p_ws_suffix l) as (u & U). unfold p_keyword. destruct (p_kw_inv (p_ws l)) as (r & Er & Es & _). exists (u ++ fst (p_kw (p_ws l))). rewrite <- app_assoc, <- Es, <- Er. exact U. Qed.
Lemma quiet_step : forall E file off A K f p, 0 <= off -> 0 <= A -> zdrop off file = lit "xref" ++ w_last A ++ K -> quiet_end K -> reads file p -> exists s1, wf file s1 /\ log s1 = log (prd p) /\
  load_xref (S f) E file off [] p = Ok (tt, with_rd s1 p).
Proof.
  intros E file off A K f p O OA Z0 QE W. cbn [load_xref zmem existsb]. cbv zeta.
  unfold bind at 1. unfold pseek at 1. unfold bind at 1. unfold onrd at 1. cbn [prd with_rd].
  set (s0 := seek file off (prd p)). pose proof (sk_nonneg file off (prd p) O) as S0. fold s0 in S0. set (e := off + zlen (zdrop off file)) in S0. clearbody e.
  rewrite Z0 in S0. unfold w_last in S0. replace (lit "xref" ++ (x0a :: dec A ++ x0a :: lit "%%EOF" ++ [x0a]) ++ K) with (lit "xref" ++ [x0a] ++ dec A ++ (x0a :: lit "%%EOF" ++ x0a :: K)) in S0 by (apps; reflexivity).
  destruct (read_word_text file s0 [] "x"%byte (lit "ref") ([x0a] ++ dec A ++ (x0a :: lit "%%EOF" ++ x0a :: K)) e (log (prd p)) gap_nil) as (s1 & R1 & S1).
  { intros c I. apply word_regular; cbn in I; intuition (subst; reflexivity). }
  { right. eexists x0a, _. split; [reflexivity | left; exact lf_ws]. }
  { exact S0. }
  rewrite R1. change (bseq ("x"%byte :: lit "ref") (lit "xref")) with true. cbv iota beta.
  unfold bind at 1. unfold onrd at 1. cbn [prd with_rd].
  destruct (read_int_text file s1 [x0a] (dec A) A (x0a :: lit "%%EOF" ++ x0a :: K) e (log (prd p)) (gap1 _ lf_ws) (dec_text A OA)) as (s2 & R2 & S2); [reflexivity | exact S1 |].
  assert (PW : p_ws (x0a :: lit "%%EOF" ++ x0a :: K) = p_ws K) by reflexivity.
  assert (N3 : exists v s3, read_int s2 = ((v, false), s3) /\ St file s3 (rest s3) e (log (prd p)) /\ forall a r, rest s3 = a ++ lit "<<" ++ r -> False).
  { destruct (p_ws K) as [| b q] eqn:QK.
    - destruct (read_int_eof file s2 _ _ _ S2 PW) as (s3 & R3 & S3 & L3). exists 0, s3. split; [exact R3 |]. split; [exact S3 |]. intros a r Q. rewrite Q, !app_length in L3. cbn in L3. lia.
    - destruct (read_int_sim file s2 _ _ _ S2) as (s3 & R3 & S3); [rewrite PW; discriminate |].
      assert (QI : p_int (x0a :: lit "%%EOF" ++ x0a :: K) = p_int K) by (unfold p_int; rewrite PW, QK; reflexivity). rewrite QI in R3, S3.
      destruct (p_int K) as [[v ok] t] eqn:QP. cbn [fst snd] in R3, S3. destruct ok.
      { exfalso. destruct (p_int_inv _ _ _ QP) as (g & d & k & G & T & Eq & _ & N). apply (qe_no_number K QE (wrap64 k)). exists g, d, k, t. split; [exact (eq_trans (zdrop_app _ [] K) Eq) |]. split; [exact G |]. split; [exact T |]. split; [apply nd_decdigit; exact N | reflexivity]. }
      exists v, s3. split; [exact R3 |]. assert (RS : rest s3 = t) by apply S3. rewrite RS. split; [exact S3 |].
      intros a r Q. destruct (p_int_suffix K) as (u & QU). rewrite QP in QU. cbn [snd] in QU. apply (qe_no_dict K QE). exists (u ++ a), r. rewrite QU, Q. apps. reflexivity. }
  destruct N3 as (v & s3 & R3 & S3 & ND).
  unfold read_xref_table. cbn [table_sections]. rewrite R2, R3. cbv iota beta.
  unfold bind at 1. unfold onrd at 1. cbn [prd with_rd].
  destruct (read_keyword_sim file s3 _ _ _ S3) as (s4 & R4 & S4). rewrite R4. destruct (p_keyword_suffix (rest s3)) as (u & QU).
  unfold bind at 1. unfold onrdr at 1. cbn [prd with_rd]. destruct S4 as (W4 & E4 & _ & G4). rewrite <- E4 in QU.
  destruct (ReadDictionary_cases file no_decryptor s4 W4 no_decent) as [(r' & PR & _) | (_ & s5 & R5 & W5 & G5)].
  { exfalso. destruct (p_ws_gap _ _ _ PR) as (g & _ & Q). apply (ND (u ++ g) r'). rewrite QU, Q. apps. reflexivity. }
  rewrite R5. exists s5. split; [exact W5 |]. split; [congruence |]. destruct p as [x1 x2 x3 x4]. reflexivity.
Qed.

Lemma start_number : forall w1 d n w2 r off r', (forall b, In b w1 -> re_ws b) -> nat_text d n -> (forall b, In b w2 -> re_ws b) -> 0 <= off ->
  w1 ++ d ++ w2 ++ r = x0a :: dec off ++ x0a :: r' -> (exists q, r = "%"%byte :: q) -> n = off.
Proof.
  intros w1 d n w2 r off r' W1 N W2 B Q [q Qr].
  assert (ND : forall b, re_ws b -> is_digit b = false) by (intros b I; cbn in I; intuition (subst; reflexivity)).
  assert (FD : forall t m, nat_text t m -> exists c t', t = c :: t' /\ is_digit c = true).
  { intros t m T. pose proof (nat_text_nonnil _ _ T) as NN. destruct t as [| c t']; [contradiction |]. exists c, t'. split; [reflexivity |]. apply (nat_text_digits _ _ T). left. reflexivity. }
  destruct (FD _ _ N) as (c & d' & Qd & Dc). destruct (FD _ _ (dec_text off B)) as (c2 & o' & Qo & Dc2).
  destruct w1 as [| b w1]; [rewrite Qd in Q; cbn [app] in Q; injection Q as Q _; rewrite Q in Dc; discriminate Dc |]. cbn [app] in Q. injection Q as -> Q.
  destruct w1 as [| b w1]; [| rewrite Qo in Q; cbn [app] in Q; injection Q as Q _; rewrite <- Q, (ND b) in Dc2; [discriminate Dc2 | apply W1; right; left; reflexivity]].
  cbn [app] in Q. destruct (digits_split_det d (dec off) (w2 ++ r) (x0a :: r') (nat_text_digits _ _ N) (nat_text_digits _ _ (dec_text off B))) as [Q1 _]; [| reflexivity | exact Q |].
  - destruct w2 as [| b w2]; [rewrite Qr; reflexivity | cbn; apply ND, W2; left; reflexivity].
  - rewrite Q1 in N. eapply nat_text_fun; [exact N | apply dec_text; exact B].
Qed.

(** ** The parts *)
Section Wrong.
  Variables (E : env) (J : bytes) (D : list iobj) (l : list (Z * iobj)) (tr : dict) (off : Z) (K0 : bytes).
  Hypothesis LW : lay_wrong J D l tr off K0.
  Let file := w_wrong J D l tr off K0.
  Let V := J ++ w_version.
  Let A := zlen J + zlen (w_body D).
  Definition wr_tail : bytes := lit "xref" ++ w_middle l tr ++ lit "xref" ++ w_last off ++ K0.
  Definition wr_second : Z := A + 4 + zlen (w_middle l tr).
  Let objs := w_places (zlen V) D.
  Lemma wr_parts : file = V ++ w_objects D ++ wr_tail.
  Proof. unfold file, V, w_wrong, w_body, wr_tail, w_middle, w_xref, w_end, w_last. apps. reflexivity. Qed.
  Lemma wr_shapes : forall o, In o D -> lay_shape o.
  Proof. intros o I. apply go_lay, (wl_objects _ _ _ _ _ _ LW), I. Qed.
  Lemma wr_places : forall p, In p l -> good_place p.
  Proof. intros p I. destruct (wl_lines _ _ _ _ _ _ LW p I) as [Q B]. split; [exact B | apply wr_shapes; exact Q]. Qed.
  Lemma wr_off : 0 <= off.
  Proof. apply (wl_offset _ _ _ _ _ _ LW). Qed.
  Lemma wr_middle : quiet (w_middle l tr).
  Proof. apply middle_quiet; [exact wr_places | exact (wl_trailer _ _ _ _ _ _ LW)]. Qed.
  Lemma wr_calm : calm wr_tail.
  Proof.
    unfold wr_tail. pose proof wr_middle as M.
    assert (L : calm (x20 :: w_last off ++ K0)).
    { pose proof (last_calm off wr_off) as L. unfold w_last in *. replace (x20 :: (x0a :: dec off ++ x0a :: lit "%%EOF" ++ [x0a]) ++ K0) with ((x20 :: x0a :: dec off ++ x0a :: lit "%%EOF") ++ x0a :: K0) by (apps; reflexivity).
      apply calm_join; [| apply quiet_calm, (qe_no_object _ (wl_back _ _ _ _ _ _ LW)) | div].
      intros u w v Q. apply (L u w (v ++ [x0a])). replace (x20 :: x0a :: dec off ++ x0a :: lit "%%EOF" ++ [x0a]) with ((x20 :: x0a :: dec off ++ x0a :: lit "%%EOF") ++ [x0a]) by (apps; reflexivity). rewrite Q. apps. reflexivity. }
    assert (M' : exists m, w_middle l tr = x0a :: m) by (eexists; unfold w_middle; reflexivity). destruct M' as [m Q]. rewrite Q in M. rewrite Q. cbn [app].
    apply (calm_join (lit "xref") x0a); [apply (calmb_ok _ false); reflexivity | | div].
    destruct M as (_ & M & _). apply calm_next in M.
    apply (calm_join (x20 :: m) "x"%byte (lit "ref" ++ w_last off ++ K0) M); [| div].
    change (x20 :: lit "ref" ++ w_last off ++ K0) with ((x20 :: lit "ref") ++ w_last off ++ K0). unfold w_last in *. apply calm_next in L.
    apply (calm_join (x20 :: lit "ref") x0a); [apply (calmb_ok _ false); reflexivity | exact L | div].
  Qed.
  Lemma wr_tame : tame wr_tail.
  Proof.
    assert (Q : wr_tail = (lit "xref" ++ w_middle l tr ++ lit "xref" ++ x0a :: dec off) ++ x0a :: lit "%%EOF" ++ x0a :: K0) by (unfold wr_tail, w_last; apps; reflexivity).
    rewrite Q. apply tame_join; [apply tame_no | apply tame_join; [apply tame_free, occurs_check; vm_compute; reflexivity | apply tame_free, (qe_no_object _ (wl_back _ _ _ _ _ _ LW))]].
    pose proof wr_middle as (M & _ & _). pose proof (quiet_nat _ _ (dec_text _ wr_off)) as (QN & _ & _).
    intros I. apply in_app_or in I. destruct I as [I | I]; [vm_compute in I; intuition discriminate |]. apply in_app_or in I. destruct I as [I | I]; [exact (M I) |].
    apply in_app_or in I. destruct I as [I | I]; [vm_compute in I; intuition discriminate |]. destruct I as [I | I]; [discriminate I | exact (QN I)].
  Qed.
  Lemma front_no : forall m, (m = lit "obj" \/ m = lit "xref") -> ~ occurs m J -> ~ occurs m (J ++ lit "%PDF-1.7").
  Proof.
    intros m M N O. change (lit "%PDF-1.7") with ("%"%byte :: lit "PDF-1.7") in O.
    apply occurs_split in O; [| destruct M; subst m; vm_compute; intuition discriminate | destruct M; subst m; discriminate].
    destruct O as [O | O]; [exact (N O) |]. revert O. apply occurs_check. destruct M; subst m; vm_compute; reflexivity.
  Qed.
  Lemma V_eq : V = (J ++ lit "%PDF-1.7") ++ [x0a].
  Proof. unfold V, w_version. apps. reflexivity. Qed.
  Lemma V_calm : calm V.
  Proof.
    intros p w q Q W. assert (NO : ~ occurs (lit "obj") V).
    { rewrite V_eq. intros O. apply occurs_split in O; [| vm_compute; intuition discriminate | discriminate]. destruct O as [O | O]; [exact (front_no _ (or_introl eq_refl) (wl_no_object _ _ _ _ _ _ LW) O) |]. revert O. apply occurs_check. reflexivity. }
    apply NO. exists (p ++ [w]), q. rewrite Q. apps. reflexivity.
  Qed.
  Lemma wr_file_tame : tame file.
  Proof.
    rewrite wr_parts, V_eq. rewrite <- app_assoc. cbn [app]. apply tame_join; [apply tame_free, front_no; [left; reflexivity | exact (wl_no_object _ _ _ _ _ _ LW)] |].
    apply objects_tame; [exact wr_shapes | exact wr_tame].
  Qed.
  Lemma V_last : forall D', exists x, V ++ w_objects D' = x ++ [x0a].
  Proof. intros D'. destruct (body_last D') as [x Q]. exists (J ++ x). unfold V. rewrite <- app_assoc, Q. apps. reflexivity. Qed.
  Lemma wr_only : only_at file (map fst objs).
  Proof.
    intros i (B & t & r & Z0 & M). pose proof wr_parts as FP. inversion M as [a n s b g s' Aa S B0 S' QT]; subst t.
    pose proof (ztake_zdrop _ i file (proj1 B)) as F. set (u := ztake i file) in *. rewrite Z0 in F.
    assert (LU : zlen u = i). { assert (zlen (u ++ (a ++ s ++ b ++ s' ++ lit "obj") ++ r) = zlen file) by (rewrite F; reflexivity). rewrite zlen_app, <- Z0, zdrop_len in H by lia. lia. }
    assert (CM : forall x c, s' = x ++ "%"%byte :: c -> In x0a c).
    { intros x c Q. apply (wr_file_tame (u ++ a ++ s ++ b ++ x) c r). rewrite <- F, Q. apps. reflexivity. }
    assert (W3 : exists s2 w, s' = s2 ++ [w] /\ ws_byte w).
    { destruct (sep_tail s' S') as [(s1 & w & Q & W & _) | (x & c & Q & C)]; [eauto | exfalso]. apply (C x0a (CM x c Q)). vm_compute. tauto. }
    destruct W3 as (s2 & w & QS & W3).
    assert (F' : V ++ (w_objects D ++ wr_tail) = (u ++ a ++ s ++ b ++ s2) ++ w :: lit "obj" ++ r).
    { rewrite <- FP, <- F, QS. apps. reflexivity. }
    assert (NT : free_start wr_tail) by (unfold wr_tail; apply xref_start).
    destruct (calm_skip V _ _ w _ V_calm (objects_start D _ wr_shapes NT) W3 F') as (p' & Q1 & Q2).
    destruct (headers_in D _ p' w _ wr_shapes NT W3 Q2) as [(D1 & o & D2 & QD & -> & ->) | (p2 & _ & QT)]; [| exfalso; exact (wr_calm p2 w r QT W3)].
    assert (Go : lay_shape o) by (apply wr_shapes; rewrite QD; apply in_or_app; right; left; reflexivity). destruct Go as [N1 N2 _ _].
    assert (EQ : u ++ a ++ s ++ b ++ s' = (V ++ w_objects D1) ++ dec (inum o) ++ x20 :: dec (igen o) ++ [x20]).
    { rewrite QS. replace (u ++ a ++ s ++ b ++ s2 ++ [x20]) with ((u ++ a ++ s ++ b ++ s2) ++ [x20]) by (apps; reflexivity). rewrite Q1. apps. reflexivity. }
    destruct (white_seps u a n s b g s' (V ++ w_objects D1) (inum o) (igen o) Aa S B0 S' ltac:(lia) ltac:(lia) (or_intror (V_last D1)) CM EQ) as [W1 W2].
    destruct (header_back u a n s b g s' (V ++ w_objects D1) (inum o) (igen o) Aa W1 B0 W2 ltac:(lia) ltac:(lia)) as (x & X1 & X2).
    { intros c r0 Q. destruct (V_last D1) as [y Y]. rewrite Y in Q. apply app_inj_tail in Q. destruct Q as [_ <-]. reflexivity. }
    { exact EQ. }
    exists (zlen (V ++ w_objects D1)). assert (QI : i = zlen (V ++ w_objects D1) + zlen x) by (rewrite <- LU, X2, zlen_app; reflexivity).
    split; [| split].
    - apply in_map_iff. exists (zlen (V ++ w_objects D1), o). split; [reflexivity |]. apply places_split. exists D1, D2. split; [exact QD | apply zlen_app].
    - pose proof (zlen_nonneg _ x). lia.
    - intros m Bm. destruct (zdrop_in file (zlen (V ++ w_objects D1)) x ((a ++ s ++ b ++ s' ++ lit "obj") ++ r) m) as (c & q & Zc & Ic).
      + apply zlen_nonneg.
      + rewrite <- F, X2. rewrite <- app_assoc. apply zdrop_app.
      + lia.
      + destruct (isdigit_dec c) as [d Dd]; [apply (dec_isdigit (inum o) ltac:(lia)); rewrite X1; apply in_or_app; left; exact Ic |]. exists c, q, d. auto.
  Qed.
  Lemma wr_object : forall D1 o D2, D = D1 ++ o :: D2 -> exists r, file = (V ++ w_objects D1) ++ w_object o ++ r.
  Proof.
    intros D1 o D2 Q. rewrite wr_parts. exists (w_objects D2 ++ wr_tail). rewrite Q. unfold w_objects at 1. rewrite flat_map_app. cbn [flat_map]. apps. reflexivity.
  Qed.
  Lemma wr_listed : forall k o, In (k, o) objs -> listed_at file k (inum o) (igen o).
  Proof.
    intros k o I. apply places_split in I. destruct I as (D1 & D2 & Q & ->). destruct (wr_object D1 o D2 Q) as [r QD]. destruct (V_last D1) as [x QX]. rewrite <- zlen_app, QX. rewrite QX in QD.
    eapply listed_text; [| exact QD | reflexivity]. apply go_lay, (wl_objects _ _ _ _ _ _ LW). rewrite Q. apply in_or_app. right. left. reflexivity.
  Qed.
  Lemma wr_at : forall k o, In (k, o) objs -> object_at E file k (as_written o).
  Proof.
    intros k o I. apply places_split in I. destruct I as (D1 & D2 & Q & ->). destruct (wr_object D1 o D2 Q) as [r QD].
    assert (Go : good_object o) by (apply (wl_objects _ _ _ _ _ _ LW); rewrite Q; apply in_or_app; right; left; reflexivity).
    destruct (as_written_num o) as [A1 A2]. rewrite <- zlen_app. pose proof (lo_number _ (go_lay _ Go)) as N1. pose proof (lo_generation _ (go_lay _ Go)) as N2. split.
    - apply zlen_nonneg.
    - rewrite A1. lia.
    - rewrite A2. lia.
    - intros b q d _ Z0 DD. destruct (V_last D1) as [x QX]. rewrite QD, QX in Z0. rewrite zdrop_before in Z0. injection Z0 as <- _. apply decdigit_spec in DD. destruct DD. discriminate.
    - exists (w_head o), (x0a :: w_value o ++ x0a :: lit "endobj" ++ x0a :: r). split; [| split].
      + rewrite QD, zdrop_app. unfold w_object. apps. reflexivity.
      + rewrite A1, A2. apply head_header, go_lay. exact Go.
      + apply written_behind. exact Go.
    - intros d QV. apply (lay_type o d (go_lay _ Go) QV).
  Qed.

  Lemma wr_right : forall k o, In (k, o) objs -> exists m, head_at file k m.
  Proof.
    intros k o I. apply places_split in I. destruct I as (D1 & D2 & Q & ->). destruct (wr_object D1 o D2 Q) as [r QD]. assert (Io : In o D) by (rewrite Q; apply in_or_app; right; left; reflexivity).
    destruct (wr_shapes o Io) as [N1 N2 _ _]. exists (wrap64 (inum o)), ([] ++ dec (inum o) ++ [x20] ++ dec (igen o) ++ [x20] ++ lit "obj"), (inum o), (igen o), (x0a :: w_value o ++ x0a :: lit "endobj" ++ x0a :: r).
    split; [| split; [| split; [right; eexists; eexists; split; [reflexivity | left; exact lf_ws] | reflexivity]]].
    - rewrite <- zlen_app, QD, zdrop_app. unfold w_object, w_head. apps. reflexivity.
    - apply oh_intro; first [exact gap_nil | discriminate | apply dec_text; lia | apply gap1; vm_compute; tauto].
  Qed.

  (** ** The sections *)
  Lemma wr_second_at : zdrop wr_second file = lit "xref" ++ w_last off ++ K0.
  Proof.
    rewrite wr_parts. unfold wr_tail. replace (V ++ w_objects D ++ lit "xref" ++ w_middle l tr ++ lit "xref" ++ w_last off ++ K0)
      with ((J ++ w_body D ++ lit "xref" ++ w_middle l tr) ++ lit "xref" ++ w_last off ++ K0) by (unfold V, w_body; apps; reflexivity).
    replace wr_second with (zlen (J ++ w_body D ++ lit "xref" ++ w_middle l tr)); [apply zdrop_app |]. rewrite !zlen_app. unfold wr_second, A. change (zlen (lit "xref")) with 4. lia.
  Qed.
  Lemma wr_xrefs : find_xref_offsets file = [A; wr_second].
  Proof.
    destruct (xref_positions file) as [SS IN]. set (mid := w_middle l tr). set (P := J ++ w_body D).
    assert (QF : file = P ++ lit "xref" ++ (mid ++ lit "xref" ++ w_last off ++ K0)) by (rewrite wr_parts; unfold P, V, w_body, wr_tail; apps; reflexivity).
    assert (LP : zlen P = A) by (unfold P, A; apply zlen_app).
    assert (NB : ~ occurs (lit "xref") P).
    { replace P with ((J ++ lit "%PDF-1.7") ++ x0a :: w_objects D) by (unfold P, w_body, w_version; apps; reflexivity). intros O. apply occurs_split in O; [| vm_compute; intuition discriminate | discriminate].
      destruct O as [O | O]; [exact (front_no _ (or_intror eq_refl) (wl_no_table _ _ _ _ _ _ LW) O) |]. exact (objects_xref D wr_shapes O). }
    pose proof wr_middle as (_ & _ & NM). fold mid in NM.
    assert (NL : ~ occurs (lit "xref") (w_last off ++ K0)).
    { replace (w_last off ++ K0) with ((x0a :: dec off ++ x0a :: lit "%%EOF") ++ x0a :: K0) by (unfold w_last; apps; reflexivity). intros O. apply occurs_split in O; [| vm_compute; intuition discriminate | discriminate].
      destruct O as [O | O]; [| exact (qe_no_table _ (wl_back _ _ _ _ _ _ LW) O)]. assert (O' : occurs (lit "xref") (w_last off)) by (destruct O as (a & b & O); exists a, (b ++ [x0a]); unfold w_last; replace (x0a :: dec off ++ x0a :: lit "%%EOF" ++ [x0a]) with ((x0a :: dec off ++ x0a :: lit "%%EOF") ++ [x0a]) by (apps; reflexivity); rewrite O; apps; reflexivity).
      clear O. destruct O' as (a & b & O). assert (I : In "x"%byte (w_last off)) by (rewrite O; apply in_or_app; right; left; reflexivity).
      unfold w_last in I. destruct I as [I | I]; [discriminate I |]. apply in_app_or in I. destruct I as [I | I]; [apply (dec_isdigit _ wr_off) in I; discriminate I | vm_compute in I; intuition discriminate]. }
    assert (MEM : forall i, In i (find_xref_offsets file) <-> i = A \/ i = wr_second).
    { intros i. rewrite IN. split.
      - intros (B & t & r & Z0 & ->). pose proof (ztake_zdrop _ i file (proj1 B)) as F. rewrite Z0 in F.
        assert (LU : zlen (ztake i file) = i) by (rewrite ztake_firstn by lia; unfold zlen in *; rewrite firstn_length; lia).
        rewrite QF in F at 2. symmetry in F. destruct (xref_next _ _ _ _ NB F) as [[Q _] | (u' & Q & F2)]; [left; rewrite <- LU, Q; exact LP |].
        destruct (xref_next _ _ _ _ NM F2) as [[Q2 _] | (u2 & Q2 & F3)].
        + right. rewrite <- LU, Q, Q2, !zlen_app, LP. unfold wr_second. fold mid. change (zlen (lit "xref")) with 4. lia.
        + exfalso. apply NL. exists u2, r. exact F3.
      - pose proof (zlen_nonneg _ P) as NP. intros [-> | ->].
        + split; [rewrite QF, zlen_app, LP; match goal with |- context [_ + zlen ?x] => pose proof (zlen_nonneg _ x) end; lia |].
          exists (lit "xref"), (mid ++ lit "xref" ++ w_last off ++ K0). split; [| reflexivity]. rewrite QF at 1. rewrite <- LP. apply zdrop_app.
        + split; [| eexists; eexists; split; [apply wr_second_at | reflexivity]].
          unfold wr_second. fold mid. rewrite QF, !zlen_app, LP. change (zlen (lit "xref")) with 4. pose proof (zlen_nonneg _ mid). pose proof (zlen_nonneg _ (w_last off ++ K0)). rewrite ?zlen_app in *. lia. }
    assert (LT : A < wr_second) by (unfold wr_second; pose proof (zlen_nonneg _ (w_middle l tr)); lia).
    clear - SS MEM LT. destruct (find_xref_offsets file) as [| a q]; [exfalso; apply (MEM A); left; reflexivity |].
    inversion SS as [| ? ? SL FA]; subst. rewrite Forall_forall in FA.
    assert (QA : a = A).
    { destruct (proj1 (MEM a) (or_introl eq_refl)) as [Q | Q]; [exact Q |]. exfalso. destruct (proj2 (MEM A) (or_introl eq_refl)) as [Q2 | I]; [lia |]. apply FA in I. lia. }
    clearbody A. subst a. f_equal. destruct q as [| b q]; [exfalso; destruct (proj2 (MEM wr_second) (or_intror eq_refl)) as [Q | []]; lia |].
    inversion SL as [| ? ? SL2 FB]; subst. rewrite Forall_forall in FB.
    assert (QB : b = wr_second). { destruct (proj1 (MEM b) (or_intror (or_introl eq_refl))) as [Q | Q]; [exfalso; specialize (FA b (or_introl eq_refl)); lia | exact Q]. }
    rewrite QB in *. f_equal. destruct q as [| c q]; [reflexivity |]. exfalso. specialize (FB c (or_introl eq_refl)). specialize (FA c (or_intror (or_introl eq_refl))).
    destruct (proj1 (MEM c) (or_intror (or_intror (or_introl eq_refl)))); lia.
  Qed.
  Lemma wr_start : start_xref_offset file = Some off \/ start_xref_offset file = None.
  Proof.
    destruct (start_xref_offset file) as [n |] eqn:QS; [left | right; reflexivity]. f_equal. apply start_offset in QS. destruct QS as [(a & m & b & Qt & T & _) _].
    assert (QF : exists a', file = a' ++ m ++ b) by (exists (firstn (List.length file - 256) file ++ a); rewrite <- app_assoc, <- Qt; unfold last256; symmetry; apply firstn_skipn). destruct QF as (a' & QF). clear Qt a.
    inversion T as [w1 d n' w2 W1 N W2 QM]. subst n' m. clear T.
    assert (IX : In (zlen (a' ++ lit "start")) (find_xref_offsets file)).
    { apply (proj2 (xref_positions file)). assert (QF' : file = (a' ++ lit "start") ++ lit "xref" ++ (w1 ++ d ++ w2 ++ lit "%%EOF") ++ b) by (rewrite QF; apps; reflexivity). split.
      - assert (LF : zlen file = zlen (a' ++ lit "start") + (4 + zlen ((w1 ++ d ++ w2 ++ lit "%%EOF") ++ b))) by (rewrite QF' at 1; rewrite (zlen_app _ (a' ++ lit "start")), (zlen_app _ (lit "xref")); reflexivity).
        pose proof (zlen_nonneg _ ((w1 ++ d ++ w2 ++ lit "%%EOF") ++ b)). pose proof (zlen_nonneg _ (a' ++ lit "start")). lia.
      - eexists; eexists. split; [rewrite QF' at 1; apply zdrop_app | reflexivity]. }
    rewrite wr_xrefs in IX. destruct IX as [IX | [IX | []]].
    - exfalso. pose proof wr_parts as FP. destruct (V_last D) as [x QV]. unfold A in IX. assert (EZ : ztake (zlen (a' ++ lit "start")) file = ztake (zlen (V ++ w_objects D)) file) by (rewrite <- IX; f_equal; unfold V, w_body; rewrite !zlen_app; lia).
      rewrite QF in EZ at 1. replace (a' ++ (lit "startxref" ++ w1 ++ d ++ w2 ++ lit "%%EOF") ++ b) with ((a' ++ lit "start") ++ lit "xref" ++ w1 ++ d ++ w2 ++ lit "%%EOF" ++ b) in EZ by (apps; reflexivity). rewrite ztake_app in EZ.
      rewrite FP, app_assoc, ztake_app, QV in EZ. replace (a' ++ lit "start") with ((a' ++ lit "star") ++ ["t"%byte]) in EZ by (apps; reflexivity). apply app_inj_tail in EZ. destruct EZ as [_ EZ]. discriminate EZ.
    - pose proof wr_second_at as SA. rewrite IX in SA. rewrite QF in SA. replace (a' ++ (lit "startxref" ++ w1 ++ d ++ w2 ++ lit "%%EOF") ++ b) with ((a' ++ lit "start") ++ lit "xref" ++ w1 ++ d ++ w2 ++ lit "%%EOF" ++ b) in SA by (apps; reflexivity).
      rewrite zdrop_app in SA. apply app_inv_head in SA. exact (start_number w1 d n w2 (lit "%%EOF" ++ b) off (lit "%%EOF" ++ x0a :: K0) W1 N W2 wr_off ltac:(unfold w_last in SA; rewrite SA; apps; reflexivity) ltac:(eexists; reflexivity)).
  Qed.
  Lemma wr_table_says : let T := table_lines (w_lines l) in
    (forall k o, In (k, o) l -> latest (inum o) T = Some (new_xentry k (igen o) 1)) /\
    (forall n e, latest n T = Some e -> n = 0 /\ x_type e = 0 /\ x_off e = 0 \/ exists k o, In (k, o) l /\ inum o = n).
  Proof.
    intros T. unfold T. rewrite (lines_are _ wr_places).
    assert (MF : map fst (map (fun p => (inum (snd p), new_xentry (fst p) (igen (snd p)) 1)) l) = map (fun p => inum (snd p)) l) by (rewrite map_map; reflexivity).
    assert (ND : NoDup (map fst ((0, new_xentry 0 65535 0) :: map (fun p => (inum (snd p), new_xentry (fst p) (igen (snd p)) 1)) l))).
    { cbn [map fst]. constructor; [| rewrite MF; exact (wl_once _ _ _ _ _ _ LW)]. rewrite MF. intros I. apply in_map_iff in I. destruct I as (o & Q & I).
      pose proof (lo_number _ (proj2 (wr_places _ I))). lia. }
    assert (LI : forall n (e : xentry) q, latest n q = Some e -> In (n, e) q).
    { intros n e. induction q as [| [k x] q IH]; [discriminate |]. cbn [latest]. destruct (latest n q) as [y |].
      - intros Q. right. apply IH. exact Q.
      - destruct (Z.eqb_spec k n) as [-> | _]; [| discriminate]. intros Q. left. congruence. }
    split.
    - intros k o I. apply latest_one; [exact ND |]. right. apply in_map_iff. exists (k, o). split; [reflexivity | exact I].
    - intros n e L. apply LI in L. destruct L as [L | L]; [left; injection L as <- <-; auto |]. right. apply in_map_iff in L. destruct L as ([k o] & Q & I). cbn [fst snd] in Q. injection Q as <- <-. eauto.
  Qed.
  Lemma wr_table_at : exists g0 g1 T g2 t r,
    zdrop A file = g0 ++ lit "xref" ++ g1 ++ T ++ lit "trailer" ++ g2 ++ t ++ r /\
    gap g0 /\ gap g1 /\ g1 <> [] /\ table_text T (w_lines l) /\ gap g2 /\ obj_text t (ODict tr) /\
    zlen (g0 ++ lit "xref" ++ g1 ++ T ++ lit "trailer" ++ g2) mod bufsize <> bufsize - 1 /\ prev_of tr None.
  Proof.
    exists [], [x0a], (w_table l), (w_break (lit "xref" ++ x0a :: w_table l ++ lit "trailer")), (w_obj (ODict tr)), (w_end off ++ K0).
    split; [| split; [constructor | split; [apply gap1, lf_ws | split; [discriminate | split; [| split; [apply break_gap | split; [apply w_obj_text, (wl_trailer _ _ _ _ _ _ LW) | split]]]]]]].
    - unfold file, w_wrong, A. rewrite <- zlen_app. rewrite app_assoc. rewrite zdrop_app. unfold w_xref. apps. reflexivity.
    - apply table_texts. exact wr_places.
    - match goal with |- zlen ?x mod _ <> _ => replace x with ((lit "xref" ++ x0a :: w_table l ++ lit "trailer") ++ w_break (lit "xref" ++ x0a :: w_table l ++ lit "trailer")) by (apps; reflexivity) end. apply break_ok.
    - apply pv_none, no_entry, (wl_prev _ _ _ _ _ _ LW).
  Qed.
  Lemma wr_first_step : forall f p, reads file p -> exists p',
    load_xref (S f) E file A [] p = Ok (tt, p') /\ reads file p' /\ log (prd p') = log (prd p) /\ psh p' = psh p /\
    (forall n, xget n (pxref p') = or_else (latest n (table_lines (w_lines l))) (xget n (pxref p))) /\
    (forall k, entry (ptrailer p') k = or_else (entry tr k) (entry (ptrailer p) k)).
  Proof.
    intros f p W. destruct wr_table_at as (g0 & g1 & T & g2 & t & r & Z0 & G0 & G1 & N1 & TT & G2 & OT & B & PV).
    destruct (table_step E file A [] g0 g1 T (w_lines l) g2 t tr r None) with (f := f) (p := p) as (s1 & m & W1 & L1 & ND & GM & R); try eassumption; [intros [] | unfold A; pose proof (zlen_nonneg _ J); pose proof (zlen_nonneg _ (w_body D)); lia |].
    rewrite R. eexists. split; [reflexivity |]. cbn [prd pxref ptrailer psh with_xref with_trailer with_rd]. split; [exact W1 |]. split; [exact L1 |]. split; [reflexivity |]. split.
    - intros n. unfold xget. rewrite mget_mmerge by (exact Zeqb_ok || assumption). fold (xget n m) (xget n (pxref p)). rewrite GM.
      destruct (latest n _); reflexivity.
    - intros k. rewrite merged_key by (eapply obj_text_nodup; eassumption). destruct (entry tr k); reflexivity.
  Qed.
  (** what the number behind "startxref" does, if the table is there already *)
  Lemma wr_last_step : forall f p, reads file p -> exists p', load_xref (S f) E file off [] p = Ok (tt, p') /\ reads file p' /\ log (prd p') = log (prd p) /\ psh p' = psh p /\
    ((forall n, xget n (pxref p') = xget n (pxref p)) /\ (forall k, entry (ptrailer p') k = entry (ptrailer p) k) \/
     (forall n, xget n (pxref p') = or_else (latest n (table_lines (w_lines l))) (xget n (pxref p))) /\ (forall k, entry (ptrailer p') k = or_else (entry tr k) (entry (ptrailer p) k))).
  Proof.
    intros f p W. destruct (wl_start _ _ _ _ _ _ LW) as [Q | NS].
    - destruct (wr_first_step f p W) as (p' & R & W' & L' & S' & X & T). unfold A in R. rewrite <- Q in R. exists p'. auto 10.
    - destruct (nothing_there E file off f p wr_off NS W) as (s1 & W1 & L1 & R). exists (with_rd s1 p). split; [exact R |]. split; [exact W1 |]. split; [exact L1 |]. split; [reflexivity |]. left. auto.
  Qed.

  Lemma wr_rest_step : forall f p, reads file p -> exists p', load_all (S f) E file (match start_xref_offset file with Some o => [o] | None => [] end) p = Ok (tt, p') /\ reads file p' /\ log (prd p') = log (prd p) /\ psh p' = psh p /\
    ((forall n, xget n (pxref p') = xget n (pxref p)) /\ (forall k, entry (ptrailer p') k = entry (ptrailer p) k) \/
     (forall n, xget n (pxref p') = or_else (latest n (table_lines (w_lines l))) (xget n (pxref p))) /\ (forall k, entry (ptrailer p') k = or_else (entry tr k) (entry (ptrailer p) k))).
  Proof.
    intros f p W. destruct wr_start as [-> | ->]; cbn [load_all]; [| exists p; split; [reflexivity | auto 10]].
    destruct (wr_last_step f p W) as (p5 & R5 & K5). unfold bind. rewrite R5. exists p5. split; [reflexivity | exact K5].
  Qed.

  (** ** Loading *)
  Definition wr_place (o : iobj) (k : Z) : Prop := In (k, o) objs.
  Lemma wr_place_of : forall o, In o D -> exists k, In (k, o) objs.
  Proof. intros o I. apply in_split in I. destruct I as (D1 & D2 & Q). exists (zlen V + zlen (w_objects D1)). apply places_split. eauto. Qed.
  Lemma wr_loaded : forall fuel ord pw, (2 <= fuel)%nat -> (forall m, Permutation (ord m) m) ->
    exists p, load fuel E ord file pw (new_parser file) = Ok (None, p) /\ reads file p /\ log (prd p) = [] /\ psh p = new_sechandler /\
      (forall k, entry (ptrailer p) k = entry tr k) /\ offsets_ok (pxref p) /\
      (forall i o, In (i, o) objs -> (forall k, In (k, o) l -> harmless file k (inum o)) -> xget (inum o) (pxref p) = Some (new_xentry i (igen o) 1)) /\
      (forall k o, In (k, o) l -> ~ harmless file k (inum o) -> xget (inum o) (pxref p) = Some (new_xentry k (igen o) 1)) /\
      (forall n, SpecOut.in_use p n <-> In n (map inum D)).
  Proof.
    intros fuel ord pw F P. unfold load. unfold bind at 1.
    destruct (find_objects_records E file (new_parser file) fuel (open_wf file) eq_refl F) as (q & os & p1 & F1 & SC & RC & W1 & X1 & T1 & S1 & ND).
    destruct (find_objects_silent E file (new_parser file) fuel os p1 (open_wf file) eq_refl F F1) as (l' & SC' & L1).
    assert (L1' : log (prd p1) = []).
    { rewrite L1; [reflexivity |]. intros i I. apply (scan_objects file objs l' wr_listed wr_only SC') in I. apply in_map_iff in I. destruct I as ([i' o] & Q & I). cbn in Q. subst i'. eapply listed_silent, wr_listed, I. }
    clear L1 SC' l'. rewrite F1.
    pose proof (objects_recorded file objs q os wr_listed wr_only SC RC) as RO. pose proof (recorded_plain objs os RO ND) as NS.
    assert (LT : A <= wr_second) by (unfold wr_second; pose proof (zlen_nonneg _ (w_middle l tr)); lia).
    unfold xref_offsets. rewrite wr_xrefs, NS. cbn [map app sortZ fold_right insertZ]. rewrite (proj2 (Z.leb_le A wr_second) LT). cbn [app load_all]. unfold bind at 1. unfold pseek at 1.
    set (p2 := with_rd (seek file (zlen file) (prd p1)) p1).
    assert (W2 : reads file p2) by (apply sk_nonneg; apply zlen_nonneg).
    assert (L2 : log (prd p2) = []) by (unfold p2; cbn [prd with_rd]; rewrite sk_log by apply zlen_nonneg; exact L1').
    destruct fuel as [| f]; [lia |]. unfold bind at 1.
    destruct (wr_first_step f p2 W2) as (p3 & R3 & W3 & L3 & S3 & X3 & T3). unfold bind at 1. rewrite R3.
    destruct (quiet_step E file wr_second off K0 f p3) as (s4 & W4 & L4 & R4); [unfold wr_second, A; pose proof (zlen_nonneg _ J); pose proof (zlen_nonneg _ (w_body D)); pose proof (zlen_nonneg _ (w_middle l tr)); lia | exact wr_off | exact wr_second_at | exact (wl_back _ _ _ _ _ _ LW) | exact W3 |].
    unfold bind at 1. rewrite R4.
    destruct (wr_rest_step f (with_rd s4 p3) W4) as (p5 & R5 & W5 & L5 & S5 & C5). rewrite R5. unfold bind at 1.
    destruct (repair_does file (ord os) os p5 W5 ND (P os)) as (p6 & R6 & W6 & T6 & S6 & C6 & RP). rewrite R6.
    set (T := table_lines (w_lines l)) in *. destruct wr_table_says as (TS1 & TS2). fold T in TS1, TS2.
    assert (TR : forall k, entry (ptrailer p6) k = entry tr k).
    { intros k. rewrite T6. destruct C5 as [[_ C5] | [_ C5]]; rewrite C5; cbn [ptrailer with_rd]; rewrite T3; unfold p2; cbn [ptrailer with_rd]; rewrite T1; cbn [ptrailer new_parser]; destruct (entry tr k); reflexivity. }
    assert (XT : forall n, xget n (pxref p5) = latest n T).
    { intros n. destruct C5 as [[C5 _] | [C5 _]]; rewrite C5; cbn [pxref with_rd]; rewrite X3; unfold p2; cbn [pxref with_rd]; rewrite X1; destruct (latest n T); reflexivity. }
    assert (NE : dget (lit "Encrypt") (ptrailer p6) = None) by (rewrite dget_entry, TR; apply no_entry, (wl_plain _ _ _ _ _ _ LW)). rewrite NE.
    (* what the search found *)
    assert (OB : forall i o, In (i, o) objs -> xget (inum o) os = Some (new_xentry i (igen o) 1)).
    { intros i o I. specialize (RO (inum o)). destruct (xget (inum o) os) as [e |].
      - destruct RO as (i' & o' & [I' _] & QN & ->). assert (K : (i', o') = (i, o)); [| congruence].
        pose proof (wl_numbers _ _ _ _ _ _ LW) as NN. rewrite <- (place_numbers D (zlen V)) in NN. fold objs in NN. clear - I I' QN NN. induction objs as [| x q IH]; [destruct I |]. cbn [map] in NN. inversion NN as [| ? ? N1 N2]; subst.
        destruct I as [-> | I]; destruct I' as [-> | I']; [reflexivity | | | apply IH; assumption]; exfalso; apply N1; apply in_map_iff; [exists (i', o') | exists (i, o)]; cbn [snd]; auto.
      - exfalso. exact (RO i o I eq_refl). }
    assert (SO : forall n s, xget n os = Some s -> exists i o, In (i, o) objs /\ inum o = n /\ s = new_xentry i (igen o) 1).
    { intros n s Q. specialize (RO n). rewrite Q in RO. destruct RO as (i & o & [I _] & QN & QS). exists i, o. auto. }
    (* where the entries lead to now *)
    assert (EN : forall i o, In (i, o) objs -> (forall k, In (k, o) l -> harmless file k (inum o)) -> xget (inum o) (pxref p6) = Some (new_xentry i (igen o) 1)).
    { intros i o I HL. pose proof (OB i o I) as QO. destruct (latest (inum o) T) as [e |] eqn:QL.
      - destruct (TS2 _ _ QL) as [(Q0 & _) | (k & o' & Il & QN)].
        + exfalso. assert (Io : In o D) by (eapply places_in; exact I). pose proof (lo_number _ (wr_shapes o Io)). lia.
        + assert (Io' : In o' D) by (apply (wl_lines _ _ _ _ _ _ LW (k, o') Il)). assert (Io : In o D) by (eapply places_in; exact I).
          assert (o' = o). { pose proof (wl_numbers _ _ _ _ _ _ LW) as NN. clear - Io Io' QN NN. induction D as [| d q IH]; [destruct Io |]. cbn [map] in NN. inversion NN as [| ? ? N1 N2]; subst.
            destruct Io as [-> | Io]; destruct Io' as [-> | Io']; auto; exfalso; apply N1; [rewrite <- QN | rewrite QN]; apply in_map; assumption. }
          subst o'. assert (QE : e = new_xentry k (igen o) 1) by (rewrite (TS1 k o Il) in QL; congruence). subst e.
          destruct (RP (inum o) _ _ QO (eq_trans (XT _) QL)) as [R1' _]; [cbn; pose proof (wl_lines _ _ _ _ _ _ LW (k, o) Il) as [_ B]; cbn in B; lia |]. rewrite R1'; [reflexivity |].
          cbn [x_off new_xentry]. destruct (HL k Il) as [H | H]; [left; exact H | right]. intros [K | (K & _)]; [exact (H K) |]. pose proof (lo_number _ (wr_shapes o Io)). lia.
      - specialize (C6 (inum o)). rewrite QO, XT, QL in C6. exact C6. }
    assert (EB : forall k o, In (k, o) l -> ~ harmless file k (inum o) -> xget (inum o) (pxref p6) = Some (new_xentry k (igen o) 1)).
    { intros k o Il NH. destruct (wl_lines _ _ _ _ _ _ LW (k, o) Il) as [Io B]. cbn [fst snd] in Io, B. destruct (wr_place_of o Io) as (i & I).
      destruct (RP (inum o) _ _ (OB i o I) (eq_trans (XT _) (TS1 k o Il))) as [_ R2']; [cbn; lia |]. apply R2'; cbn [x_off new_xentry].
      - intros H. apply NH. left. exact H.
      - left. destruct (int_at_iff file (seek file k (prd p5)) (inum o) (seek_wf _ _ _ W5)) as [K1 K2]. assert (PS : pos (seek file k (prd p5)) = k) by (unfold seek; rewrite (proj2 (Z.ltb_ge k 0) ltac:(lia)); reflexivity). rewrite PS in *.
        destruct (fst (p_int (rest (seek file k (prd p5))))) as [v ok] eqn:QI. destruct (Z.eq_dec v (inum o)) as [-> | N]; [destruct ok; [apply K2; reflexivity |] |]; exfalso; apply NH; right; intros K; apply K1 in K; congruence. }
    exists p6. split; [reflexivity |]. split; [exact W6 |]. split.
    { rewrite (repair_log file (ord os) p5 tt p6 W5); [| | exact R6]; [| eapply Permutation_NoDup; [symmetry; apply Permutation_map; apply P | exact ND]]. rewrite L5. cbn [prd with_rd]. rewrite L4, L3. exact L2. }
    split; [rewrite S6, S5; cbn [psh with_rd]; rewrite S3; unfold p2; cbn [psh with_rd]; rewrite S1; reflexivity |].
    split; [exact TR |]. split; [| split; [exact EN | split; [exact EB |]]].
    - intros n e Q _. specialize (C6 n). rewrite Q, XT in C6. 
      assert (TO : forall e', latest n T = Some e' -> 0 <= x_off e').
      { intros e' QL. destruct (TS2 _ _ QL) as [(_ & _ & ->) | (k & o & Il & <-)]; [lia |]. rewrite (TS1 k o Il) in QL. injection QL as <-. cbn. pose proof (wl_lines _ _ _ _ _ _ LW (k, o) Il) as [_ B]. cbn in B. lia. }
      destruct (xget n os) as [s |] eqn:QS.
      + destruct (SO n s QS) as (i & o & I & QN & ->). apply places_split in I. destruct I as (D1 & D2 & _ & QI). assert (0 <= i) by (subst i; pose proof (zlen_nonneg _ V); pose proof (zlen_nonneg _ (w_objects D1)); lia).
        destruct (latest n T) as [e' |] eqn:QL; [| injection C6 as ->; cbn; lia]. destruct C6 as (e2 & Q2 & _ & OO). injection Q2 as <-. destruct OO as [-> | ->]; [apply TO; reflexivity | cbn; lia].
      + apply TO. symmetry. exact C6.
    - intros n. split.
      + intros (e & Q & TY). specialize (C6 n). rewrite Q, XT in C6. destruct (xget n os) as [s |] eqn:QS.
        * destruct (SO n s QS) as (i & o & I & <- & _). apply in_map. eapply places_in; exact I.
        * destruct (TS2 n e (eq_sym C6)) as [(_ & TY0 & _) | (k & o & Il & <-)]; [congruence |]. apply in_map. apply (wl_lines _ _ _ _ _ _ LW (k, o) Il).
      + intros I. apply in_map_iff in I. destruct I as (o & <- & I). destruct (wr_place_of o I) as (i & Ii). pose proof (OB i o Ii) as QO. specialize (C6 (inum o)). rewrite QO, XT in C6.
        destruct (latest (inum o) T) as [e |] eqn:QL; [| eexists; split; [exact C6 | reflexivity]]. destruct C6 as (e' & Q' & (_ & TY & _) & _). exists e'. split; [exact Q' |]. rewrite TY.
        destruct (TS2 _ _ QL) as [(Q0 & _) | (k & o' & Il & QN)]; [exfalso; pose proof (lo_number _ (wr_shapes o I)); lia |]. rewrite <- QN, (TS1 k o' Il) in QL. injection QL as <-. reflexivity.
  Qed.
End Wrong.

(** ** Reading *)
Lemma wrong_read : forall E J D l tr off K0, lay_wrong J D l tr off K0 -> forall fuel ord pw, (2 <= fuel)%nat -> (forall m, Permutation (ord m) m) ->
  let file := w_wrong J D l tr off K0 in exists p, load fuel E ord file pw (new_parser file) = Ok (None, p) /\
    (forall o, In o D -> (forall k, In (k, o) l -> harmless file k (inum o)) -> fetched E file p (inum o) (as_written o)) /\
    (forall n, ~ In n (map inum D) -> fetched E file p n {| inum := n; igen := 0; ival := OKw (lit "null"); istream := None |}) /\
    (forall k, entry (ptrailer p) k = entry tr k) /\ errors_txt p = [].
Proof.
  intros E J D l tr off K0 LW fuel ord pw F P file. destruct (wr_loaded E J D l tr off K0 LW fuel ord pw F P) as (p & L & W & LG & SH & TR & OF & XG & _ & IU). fold file in L, W, XG.
  exists p. split; [exact L |]. split; [| split; [| split; [exact TR | unfold errors_txt; rewrite LG; reflexivity]]].
  - intros o I HL. destruct (wr_place_of J D o I) as (k & K). pose proof (XG k o K HL) as X. destruct (as_written_num o) as [A1 A2]. rewrite <- A1 in X |- *.
    eapply fetch_object; [apply (wr_at E _ _ _ _ _ _ LW); eassumption | exact W | exact SH | exact X | reflexivity | cbn; congruence | reflexivity].
  - intros n NI. apply (held_null E file D p); [| exact NI]. intros m U. apply IU in U. apply in_map_iff in U. destruct U as (o & Q & I). eauto.
Qed.
Lemma wrong_state : forall E J D l tr off K0, wrong_document J D l tr off K0 -> forall fuel ord pw p, (forall m, Permutation (ord m) m) ->
  let file := w_wrong J D l tr off K0 in load fuel E ord file pw (new_parser file) = Ok (None, p) ->
  reads file p /\ offsets_ok (pxref p) /\ NoDup (map inum (map as_written D)) /\ (forall o, In o (map as_written D) -> fetched E file p (inum o) o /\ SpecOut.in_use p (inum o)) /\
  (forall n, SpecOut.in_use p n -> exists o, In o (map as_written D) /\ inum o = n) /\ psh p = new_sechandler /\ log (prd p) = [] /\
  forall n e, xget n (pxref p) = Some e -> x_type e = 1 -> exists o, object_at E file (x_off e) o /\ inum o = n /\ igen o = x_gen e.
Proof.
  intros E J D l tr off K0 [LW HL] fuel ord pw p P file L0.
  destruct (wrong_read E J D l tr off K0 LW 2 ord pw (le_n _) P) as (p' & L & FD & _). fold file in L, FD. pose proof (load_det _ _ _ _ _ _ _ _ _ L0 L) as Q. assert (p' = p) by congruence. subst p'. clear Q L.
  destruct (wr_loaded E J D l tr off K0 LW 2 ord pw (le_n _) P) as (p' & L & W & LG & SH & TR & OF & XG & _ & IU). fold file in L, W, XG. pose proof (load_det _ _ _ _ _ _ _ _ _ L0 L) as Q. assert (p' = p) by congruence. subst p'. clear Q L.
  assert (HL' : forall o k, In (k, o) l -> harmless file k (inum o)) by (intros o k I; exact (HL k o I)).
  split; [exact W |]. split; [exact OF |]. split; [rewrite map_map; erewrite map_ext; [exact (wl_numbers _ _ _ _ _ _ LW) | intros o; apply as_written_num] |]. split; [| split; [| split; [exact SH | split; [exact LG |]]]].
  - intros o I. apply in_map_iff in I. destruct I as (o' & <- & I). rewrite (proj1 (as_written_num o')). split; [exact (FD o' I (HL' o')) |]. apply IU. apply in_map. exact I.
  - intros n U. apply IU in U. apply in_map_iff in U. destruct U as (o & <- & I). exists (as_written o). split; [apply in_map; exact I | apply as_written_num].
  - intros n e X TY. assert (I : In n (map inum D)) by (apply IU; exists e; auto). apply in_map_iff in I. destruct I as (o & <- & I). destruct (wr_place_of J D o I) as (k & K). rewrite (XG k o K (HL' o)) in X. injection X as <-.
    destruct (as_written_num o) as [A1 A2]. exists (as_written o). split; [exact (wr_at E _ _ _ _ _ _ LW k o K) | split; [exact A1 | exact A2]].
Qed.
Lemma wrong_loads : forall E J D l tr off K0, wrong_document J D l tr off K0 -> forall ord pw, (forall m, Permutation (ord m) m) ->
  exists p, load 2 E ord (w_wrong J D l tr off K0) pw (new_parser (w_wrong J D l tr off K0)) = Ok (None, p).
Proof. intros E J D l tr off K0 [LW _] ord pw P. destruct (wrong_read E J D l tr off K0 LW 2 ord pw (le_n _) P) as (p & L & _). eauto. Qed.
Lemma wrong_errors : forall E J D l tr off K0, wrong_document J D l tr off K0 -> forall OD fuel pw w p, order_ok OD ->
  parse_body E OD fuel (w_wrong J D l tr off K0) pw (new_parser (w_wrong J D l tr off K0)) = (w, Ok (None, p)) -> errors_txt p = [].
Proof.
  intros E J D l tr off K0 WD OD fuel pw w p OK H. destruct (body_ok _ _ _ _ _ _ _ _ _ H) as (p1 & L & X & _). destruct (X eq_refl) as (u & Y).
  destruct (wrong_state E J D l tr off K0 WD fuel (o_objects OD) pw p1 (fun m => Permutation_sym (proj1 (proj2 OK) m)) L) as (W & _ & _ & _ & _ & SH & LG & OA).
  unfold errors_txt. rewrite (all_hushed E OD fuel (w_wrong J D l tr off K0) p1 OK) with (l := o_xref OD (pxref p1)) (w := w) (u := u); [rewrite LG; reflexivity | | exact W | exact Y]. apply plain_hushed; [exact SH |].
  intros n e XE TY. destruct (OA n e XE TY) as (o & Ao & R). exists o. split; [apply object_readable; exact Ao | exact R].
Qed.

(** ** Bytes in front *)
Lemma behind_is : forall J D tr, w_behind J D tr = w_wrong J D (w_places (zlen w_version) D) tr (zlen (w_body D)) [].
Proof. intros. unfold w_wrong. rewrite app_nil_r. reflexivity. Qed.
Lemma behind_lay : forall J D tr, good_document D tr -> ~ occurs (lit "obj") J -> ~ occurs (lit "xref") J -> no_section (w_behind J D tr) (zlen (w_body D)) ->
  lay_wrong J D (w_places (zlen w_version) D) tr (zlen (w_body D)) [].
Proof.
  intros J D tr GD N1 N2 NS. pose proof (gd_lay _ _ GD) as LD. constructor.
  - exact (gd_objects _ _ GD).
  - exact (ld_numbers _ _ LD).
  - exact (ld_trailer _ _ LD).
  - exact (ld_prev _ _ LD).
  - exact (gd_plain _ _ GD).
  - exact N1.
  - exact N2.
  - exact quiet_nil.
  - intros [k o] I. split; [cbn; eapply places_in; exact I | exact (proj1 (good_places D tr LD _ I))].
  - rewrite place_numbers. exact (ld_numbers _ _ LD).
  - split; [apply zlen_nonneg |]. pose proof (ld_size _ _ LD) as SZ. unfold w_document in SZ. rewrite zlen_app in SZ. match type of SZ with _ + zlen ?x < _ => pose proof (zlen_nonneg _ x) end. lia.
  - right. rewrite <- behind_is. exact NS.
Qed.
Lemma behind_read : forall E J D tr, good_document D tr -> ~ occurs (lit "obj") J -> ~ occurs (lit "xref") J -> no_section (w_behind J D tr) (zlen (w_body D)) ->
  forall fuel ord pw, (2 <= fuel)%nat -> (forall m, Permutation (ord m) m) ->
  let file := w_behind J D tr in exists p, load fuel E ord file pw (new_parser file) = Ok (None, p) /\
    (forall k o, In (k, o) (w_places (zlen w_version) D) -> harmless file k (inum o) -> fetched E file p (inum o) (as_written o)) /\
    (forall n, ~ In n (map inum D) -> fetched E file p n {| inum := n; igen := 0; ival := OKw (lit "null"); istream := None |}) /\
    (forall k, entry (ptrailer p) k = entry tr k) /\ errors_txt p = [].
Proof.
  intros E J D tr GD N1 N2 NS fuel ord pw F P file. unfold file. rewrite behind_is. destruct (wrong_read E J D _ tr _ _ (behind_lay J D tr GD N1 N2 NS) fuel ord pw F P) as (p & L & FD & R). exists p. split; [exact L |]. split; [| exact R].
  intros k o I HL. apply FD; [eapply places_in; exact I |]. intros k' I'. assert (Q : k' = k); [| subst k'; exact HL].
  pose proof (ld_numbers _ _ (gd_lay _ _ GD)) as NN. rewrite <- (place_numbers D (zlen w_version)) in NN. clear - I I' NN. induction (w_places (zlen w_version) D) as [| x q IH]; [destruct I |]. cbn [map] in NN. inversion NN as [| ? ? M1 M2]; subst.
  destruct I as [-> | I]; destruct I' as [Q | I']; [congruence | | | apply IH; assumption]; exfalso; apply M1; apply in_map_iff; [exists (k', o) | exists (k, o)]; subst; cbn [snd]; auto.
Qed.

(** ** Bytes behind *)
Lemma before_is : forall D tr K, w_before D tr K = w_wrong [] D (w_places (zlen w_version) D) tr (zlen (w_body D)) K.
Proof. intros. unfold w_before, w_document, w_wrong. apps. reflexivity. Qed.
Lemma before_wrong : forall D tr K, good_document D tr -> quiet_end K -> wrong_document [] D (w_places (zlen w_version) D) tr (zlen (w_body D)) K.
Proof.
  intros D tr K GD QE. pose proof (gd_lay _ _ GD) as LD.
  assert (LW : lay_wrong [] D (w_places (zlen w_version) D) tr (zlen (w_body D)) K).
  { constructor.
    - exact (gd_objects _ _ GD).
    - exact (ld_numbers _ _ LD).
    - exact (ld_trailer _ _ LD).
    - exact (ld_prev _ _ LD).
    - exact (gd_plain _ _ GD).
    - apply (qe_no_object _ quiet_nil).
    - apply (qe_no_table _ quiet_nil).
    - exact QE.
    - intros [k o] I. split; [cbn; eapply places_in; exact I | exact (proj1 (good_places D tr LD _ I))].
    - rewrite place_numbers. exact (ld_numbers _ _ LD).
    - split; [apply zlen_nonneg |]. pose proof (ld_size _ _ LD) as SZ. unfold w_document in SZ. rewrite zlen_app in SZ. match type of SZ with _ + zlen ?x < _ => pose proof (zlen_nonneg _ x) end. lia.
    - left. reflexivity. }
  split; [exact LW |]. intros k o I. left. exact (wr_right _ _ _ _ _ _ LW k o I).
Qed.
Lemma before_read : forall E D tr K, good_document D tr -> quiet_end K -> forall fuel ord pw, (2 <= fuel)%nat -> (forall m, Permutation (ord m) m) ->
  let file := w_before D tr K in exists p, load fuel E ord file pw (new_parser file) = Ok (None, p) /\
    (forall o, In o D -> fetched E file p (inum o) (as_written o)) /\
    (forall n, ~ In n (map inum D) -> fetched E file p n {| inum := n; igen := 0; ival := OKw (lit "null"); istream := None |}) /\
    (forall k, entry (ptrailer p) k = entry tr k) /\ errors_txt p = [].
Proof.
  intros E D tr K GD QE fuel ord pw F P file. destruct (before_wrong D tr K GD QE) as [LW HL]. unfold file. rewrite before_is. destruct (wrong_read E [] D _ tr _ _ LW fuel ord pw F P) as (p & L & FD & R).
  exists p. split; [exact L |]. split; [| exact R]. intros o I. apply FD; [exact I |]. intros k. apply HL.
Qed.

(** ** Checking examples *)
Lemma xref_regular : forall c, In c ("x"%byte :: lit "ref") -> regular_byte c.
Proof. intros c I. apply word_regular; cbn in I; intuition (subst; reflexivity). Qed.
Lemma section_check : forall file off, 0 <= off -> let s := seek file off (prd (new_parser file)) in
  bseq (fst (read_keyword s)) (lit "xref") = false -> snd (fst (read_object_header s)) = false -> no_section file off.
Proof.
  intros file off O s K H. assert (W : wf file s) by (apply seek_wf; apply open_wf). assert (PS : pos s = off) by (unfold s, seek; rewrite (proj2 (Z.ltb_ge off 0) O); reflexivity). split.
  - intros g r Q G ET. pose proof (St_intro _ _ W) as S0. rewrite (wf_rest _ _ W), PS, Q in S0.
    destruct (read_word_text file s g "x"%byte (lit "ref") r (off + zlen (g ++ lit "xref" ++ r)) (log s) G) as (s1 & R1 & _); [exact xref_regular | exact ET | exact S0 |].
    rewrite R1 in K. discriminate K.
  - intros n HA. rewrite <- PS in HA. rewrite (header_whole_back file s n W HA) in H. discriminate H.
Qed.
Lemma number_check : forall file k n, 0 <= k -> let s := seek file k (prd (new_parser file)) in fst (fst (read_int s)) <> n -> ~ int_at file k n.
Proof.
  intros file k n O s H IA. assert (W : wf file s) by (apply seek_wf; apply open_wf). assert (PS : pos s = k) by (unfold s, seek; rewrite (proj2 (Z.ltb_ge k 0) O); reflexivity).
  rewrite <- PS in IA. apply (int_at_iff file s n W) in IA. rewrite (read_int_value file s W) in H. apply H. rewrite IA. reflexivity.
Qed.

(** ** A few bytes in front: 3, 5 or 6 *)
Lemma no_gap : forall g t b q, gap g -> g ++ t = b :: q -> regular_byte b -> g = [].
Proof.
  intros g t b q G Q [NW ND]. destruct G as [| c g W G | c e g NC EC G]; [reflexivity | |]; exfalso; cbn [app] in Q; injection Q as <- _; [exact (NW W) |]. apply ND, is_delim_spec. reflexivity.
Qed.
Lemma nat_start : forall t n r b q, nat_text t n -> t ++ r = b :: q -> is_digit b = true.
Proof. intros t n r b q T Q. pose proof (nat_text_nonnil _ _ T) as N. destruct t as [| c t]; [contradiction |]. cbn [app] in Q. injection Q as <- _. apply (nat_text_digits _ _ T). left. reflexivity. Qed.
Lemma plain_there : forall file k b q, zdrop k file = b :: q -> regular_byte b -> is_digit b = false -> b <> "x"%byte -> no_section file k /\ forall n, ~ int_at file k n.
Proof.
  intros file k b q Z0 R ND NX. split; [split |].
  - intros g r Q G _. rewrite Z0 in Q. pose proof (no_gap _ _ _ _ G (eq_sym Q) R) as ->. cbn in Q. injection Q as Q _. exact (NX Q).
  - intros n (h & m & g & r & Q & H & _). rewrite Z0 in Q. destruct H as [g1 t1 n1 g2 t2 n2 g3 G1 T1]. rewrite <- !app_assoc in Q. pose proof (no_gap _ _ _ _ G1 (eq_sym Q) R) as ->. cbn [app] in Q.
    rewrite (nat_start _ _ _ _ _ T1 (eq_sym Q)) in ND. discriminate ND.
  - intros n (g & t & m & r & Q & G & T & _). rewrite Z0 in Q. pose proof (no_gap _ _ _ _ G (eq_sym Q) R) as ->. cbn [app] in Q. rewrite (nat_start _ _ _ _ _ T (eq_sym Q)) in ND. discriminate ND.
Qed.
Definition few (J : bytes) : Prop := zlen J = 3 \/ zlen J = 5 \/ zlen J = 6.
Lemma body_tail : forall D, exists x, w_version ++ w_objects D = x ++ lit "F-1.7" ++ [x0a] \/ w_version ++ w_objects D = x ++ lit "ndobj" ++ [x0a].
Proof.
  intros D. destruct D as [| o D _] using rev_ind; [exists (lit "%PD"); left; reflexivity |]. unfold w_objects. rewrite flat_map_app. cbn [flat_map]. rewrite app_nil_r.
  exists (w_version ++ flat_map w_object D ++ w_head o ++ x0a :: w_value o ++ [x0a; "e"%byte]). right. unfold w_object. apps. reflexivity.
Qed.
Lemma few_at : forall J D R, few J -> exists b q, zdrop (zlen (w_version ++ w_objects D)) (J ++ (w_version ++ w_objects D) ++ R) = b :: q /\ regular_byte b /\ is_digit b = false /\ b <> "x"%byte.
Proof.
  intros J D R F. destruct (body_tail D) as (x & Q).
  assert (K : forall y t, w_version ++ w_objects D = y ++ t -> zlen t = zlen J -> zdrop (zlen (w_version ++ w_objects D)) (J ++ (w_version ++ w_objects D) ++ R) = t ++ R).
  { intros y t QY LT. rewrite QY. replace (zlen (y ++ t)) with (zlen (J ++ y)) by (rewrite !zlen_app; lia). rewrite <- app_assoc, app_assoc. apply zdrop_app. }
  assert (RG : forall b, In b (lit ".-Fbdn") -> regular_byte b /\ is_digit b = false /\ b <> "x"%byte).
  { intros b I. cbn in I. repeat (destruct I as [<- | I]; [split; [apply word_regular; reflexivity | split; [reflexivity | discriminate]] |]). destruct I. }
  destruct F as [F | [F | F]]; destruct Q as [Q | Q].
  - exists "."%byte, ("7"%byte :: x0a :: R). split; [apply (K (x ++ lit "F-1") (lit ".7" ++ [x0a])); [rewrite Q; apps; reflexivity | rewrite F; reflexivity] | apply RG; cbn; tauto].
  - exists "b"%byte, ("j"%byte :: x0a :: R). split; [apply (K (x ++ lit "ndo") (lit "bj" ++ [x0a])); [rewrite Q; apps; reflexivity | rewrite F; reflexivity] | apply RG; cbn; tauto].
  - exists "-"%byte, (lit "1.7" ++ x0a :: R). split; [apply (K (x ++ lit "F") (lit "-1.7" ++ [x0a])); [rewrite Q; apps; reflexivity | rewrite F; reflexivity] | apply RG; cbn; tauto].
  - exists "d"%byte, (lit "obj" ++ x0a :: R). split; [apply (K (x ++ lit "n") (lit "dobj" ++ [x0a])); [rewrite Q; apps; reflexivity | rewrite F; reflexivity] | apply RG; cbn; tauto].
  - exists "F"%byte, (lit "-1.7" ++ x0a :: R). split; [apply (K x (lit "F-1.7" ++ [x0a])); [exact Q | rewrite F; reflexivity] | apply RG; cbn; tauto].
  - exists "n"%byte, (lit "dobj" ++ x0a :: R). split; [apply (K x (lit "ndobj" ++ [x0a])); [exact Q | rewrite F; reflexivity] | apply RG; cbn; tauto].
Qed.
Lemma few_wrong : forall J D tr, good_document D tr -> few J -> ~ occurs (lit "obj") J -> ~ occurs (lit "xref") J -> wrong_document J D (w_places (zlen w_version) D) tr (zlen (w_body D)) [].
Proof.
  intros J D tr GD F N1 N2. assert (QW : w_wrong J D (w_places (zlen w_version) D) tr (zlen (w_body D)) [] = J ++ (w_version ++ w_objects D) ++ w_tail D tr) by (rewrite <- behind_is; unfold w_behind; rewrite document_parts; apps; reflexivity).
  constructor.
  - apply behind_lay; try assumption. rewrite behind_is, QW. unfold w_body. destruct (few_at J D (w_tail D tr) F) as (b & q & Z0 & R & ND & NX). exact (proj1 (plain_there _ _ _ _ Z0 R ND NX)).
  - intros k o I. right. apply places_split in I. destruct I as (D1 & D2 & Q & ->). destruct (document_at D tr D1 o D2 Q) as [r QD]. rewrite <- behind_is. unfold w_behind. rewrite QD, <- zlen_app.
    destruct (few_at J D1 (w_object o ++ r) F) as (b & q & Z0 & R & ND & NX). exact (proj2 (plain_there _ _ _ _ Z0 R ND NX) (inum o)).
Qed.
Lemma few_read : forall E J D tr, good_document D tr -> few J -> ~ occurs (lit "obj") J -> ~ occurs (lit "xref") J ->
  forall fuel ord pw, (2 <= fuel)%nat -> (forall m, Permutation (ord m) m) ->
  let file := w_behind J D tr in exists p, load fuel E ord file pw (new_parser file) = Ok (None, p) /\
    (forall o, In o D -> fetched E file p (inum o) (as_written o)) /\
    (forall n, ~ In n (map inum D) -> fetched E file p n {| inum := n; igen := 0; ival := OKw (lit "null"); istream := None |}) /\
    (forall k, entry (ptrailer p) k = entry tr k) /\ errors_txt p = [].
Proof.
  intros E J D tr GD FW N1 N2 fuel ord pw F P file. destruct (few_wrong J D tr GD FW N1 N2) as [LW HL]. unfold file. rewrite behind_is. destruct (wrong_read E J D _ tr _ _ LW fuel ord pw F P) as (p & L & FD & R). exists p. split; [exact L |]. split; [| exact R].
  intros o I. apply FD; [exact I |]. intros k. apply HL.
Qed.
