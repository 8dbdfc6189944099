(** XWriteP.v -- reading a document with a cross-reference stream (C101). *)
From Verif Require Import Base BaseP Msg Reader ReaderP Num NumP Lexer Plain LexerP Obj ReadObj Bits Filters Env Getters Crypt GetObj GetObjP Regex Xref Load Extract Output Render Parse Errors
  SpecLex SpecLexP SpecObj SpecObjP SpecNumP SpecFilters FiltersP SpecRead SpecFetch SpecLook SpecStream StreamEx SpecScan SpecXref XrefP FetchP LookP RawP AlongP LoadInvP SpecOut SpecRecover OrderP RepairP CryptObjP DocP ScanP RecoverP ErrorsP
  SpecWrite WriteP WriteDocP WriteLoadP WriteOutP SpecXWrite.
From Coq Require Import Strings.String Sorting.Permutation Sorting.Sorted.

Lemma places_app : forall D D2 off, w_places off (D ++ D2) = w_places off D ++ w_places (off + zlen (w_objects D)) D2.
Proof.
  induction D as [| o D IH]; intros D2 off; [cbn [app w_places w_objects flat_map]; change (zlen (@nil byte)) with 0; rewrite Z.add_0_r; reflexivity |].
  cbn [app w_places]. rewrite IH. unfold w_objects. cbn [flat_map]. rewrite zlen_app, Z.add_assoc. reflexivity.
Qed.
Lemma end_calm : forall A, 0 <= A -> calm (w_end A).
Proof.
  intros A B. unfold w_end. apply (calm_join [] x0a); [apply (calmb_ok _ false); reflexivity | | div].
  change (x20 :: lit "startxref" ++ x0a :: dec A ++ x0a :: lit "%%EOF" ++ [x0a]) with ((x20 :: lit "startxref") ++ x0a :: dec A ++ x0a :: lit "%%EOF" ++ [x0a]).
  pose proof (last_calm A B) as L. unfold w_last in L. apply calm_next in L.
  apply (calm_join (x20 :: lit "startxref") x0a); [apply (calmb_ok _ false); reflexivity | exact L | div].
Qed.
Lemma end_tame : forall A, 0 <= A -> tame (w_end A).
Proof.
  intros A B. replace (w_end A) with ((x0a :: lit "startxref" ++ x0a :: dec A) ++ x0a :: lit "%%EOF" ++ [x0a]) by (unfold w_end; apps; reflexivity).
  apply tame_join; [apply tame_no | apply tame_free, occurs_check; vm_compute; reflexivity].
  pose proof (quiet_nat _ _ (dec_text _ B)) as (QN & _ & _). intros [I | I]; [discriminate I |]. apply in_app_or in I. destruct I as [I | [I | I]]; [vm_compute in I; intuition discriminate | discriminate I | exact (QN I)].
Qed.
Lemma shape_headed : forall o file i pre r, lay_shape o -> file = (pre ++ [x0a]) ++ w_object o ++ r -> i = zlen (pre ++ [x0a]) -> headed_at file i (inum o) (igen o) (ival (as_written o)).
Proof.
  intros o file i pre r Lo QF ->. pose proof (lo_number _ Lo) as N1. pose proof (lo_generation _ Lo) as N2. split; [apply zlen_nonneg |]. split; [lia |]. split; [lia |]. split.
  - intros b q d _ Z0 DD. rewrite QF, zdrop_before in Z0. injection Z0 as <- _. apply decdigit_spec in DD. destruct DD. discriminate.
  - destruct (value_text o) as [v QV]. exists (w_head o), [x0a], (w_obj (ival (as_written o))), (v ++ x0a :: lit "endobj" ++ x0a :: r). split; [| split; [| split; [| split; [| split]]]].
    + rewrite QF, zdrop_app. unfold w_object. rewrite QV. apps. reflexivity.
    + apply head_header. exact Lo.
    + apply gap_ws; [exact lf_ws | constructor].
    + apply w_obj_text, written_printable, Lo.
    + apply ws_ends, lf_ws.
    + rewrite zlen_app. change (zlen [x0a]) with 1. pose proof (head_len o Lo). unfold bufsize. lia.
Qed.
Lemma good_at : forall E o file pre r, good_object o -> file = (pre ++ [x0a]) ++ w_object o ++ r -> object_at E file (zlen (pre ++ [x0a])) (as_written o).
Proof.
  intros E o file pre r Go QF. destruct (as_written_num o) as [A1 A2]. pose proof (lo_number _ (go_lay _ Go)) as N1. pose proof (lo_generation _ (go_lay _ Go)) as N2. split.
  - apply zlen_nonneg.
  - rewrite A1. lia.
  - rewrite A2. lia.
  - intros b q d _ Z0 DD. rewrite QF, zdrop_before in Z0. injection Z0 as <- _. apply decdigit_spec in DD. destruct DD. discriminate.
  - exists (w_head o), (x0a :: w_value o ++ x0a :: lit "endobj" ++ x0a :: r). split; [| split].
    + rewrite QF, zdrop_app. unfold w_object. apps. reflexivity.
    + rewrite A1, A2. apply head_header, go_lay. exact Go.
    + apply written_behind. exact Go.
  - intros d QV. apply (lay_type o d (go_lay _ Go) QV).
Qed.
Lemma no_int : forall file off r n, zdrop off file = x0a :: "<"%byte :: r -> ~ int_at file off n.
Proof.
  intros file off r n Z0 (g & t & k & r' & Q & G & T & _). rewrite Z0 in Q. pose proof (nat_text_nonnil _ _ T) as NN. pose proof (nat_text_digits _ _ T) as DG.
  destruct t as [| c t]; [contradiction |]. specialize (DG c (or_introl eq_refl)).
  inversion G as [| b g' W G' | ? ? ? ? ? ? Q2]; subst; [cbn in Q; injection Q as <- _; discriminate DG | | cbn in Q; discriminate Q].
  cbn [app] in Q. injection Q as <- Q. inversion G' as [| b g2 W2 G2 | ]; subst; cbn [app] in Q; [injection Q as <- _; discriminate DG | injection Q as <- _ | discriminate Q].
  apply is_ws_spec in W2. discriminate W2.
Qed.
Lemma one_stream : forall (os : xmap) n e, NoDup (map fst os) -> In (n, e) os -> x_stm e = true -> (forall k x, In (k, x) os -> x_stm x = true -> k = n) ->
  filter (fun kv : Z * xentry => x_stm (snd kv)) os = [(n, e)].
Proof.
  induction os as [| [k x] os IH]; intros n e ND I S1 U; [destruct I |]. cbn [map fst] in ND. inversion ND as [| ? ? NI ND']; subst. cbn [filter snd].
  destruct I as [I | I].
  - injection I as -> ->. rewrite S1. f_equal. destruct (filter (fun kv : Z * xentry => x_stm (snd kv)) os) as [| [k x] q] eqn:Q; [reflexivity |]. exfalso.
    assert (I : In (k, x) (filter (fun kv : Z * xentry => x_stm (snd kv)) os)) by (rewrite Q; left; reflexivity). apply filter_In in I. destruct I as [I XS]. cbn [snd] in XS.
    assert (k = n) by (apply (U k x); [right; exact I | exact XS]). subst k. apply NI. apply in_map_iff. exists (n, x). auto.
  - destruct (x_stm x) eqn:XS.
    + exfalso. assert (k = n) by (apply (U k x); [left; reflexivity | exact XS]). subst k. apply NI. apply in_map_iff. exists (n, e). auto.
    + apply IH; [exact ND' | exact I | exact S1 |]. intros k' x' I'. apply U. right. exact I'.
Qed.
Lemma nodup_same : forall D (x y : iobj), NoDup (map inum D) -> In x D -> In y D -> inum x = inum y -> x = y.
Proof.
  induction D as [| d D IH]; intros x y ND Ix Iy Q; [destruct Ix |]. cbn [map] in ND. inversion ND as [| ? ? N ND']; subst.
  destruct Ix as [-> | Ix]; destruct Iy as [-> | Iy]; auto; exfalso; apply N; [rewrite Q | rewrite <- Q]; apply in_map; assumption.
Qed.

Section XDoc.
  Variables (E : env) (D : list iobj) (xs : iobj) (d : dict) (data : bytes).
  Hypothesis LX : lay_xdocument E D xs d data.
  Let file := w_xdocument D xs.
  Let A := zlen (w_body D).
  Let D' := D ++ [xs].
  Let objs := w_places (zlen w_version) D'.
  Let B := zlen (w_body D') + 6.
  Definition x_behind : Z := zlen (w_body D) + zlen (w_head xs).

  Lemma x_file : file = w_version ++ w_objects D' ++ w_end A.
  Proof. unfold file, w_xdocument, w_body. fold D'. rewrite <- app_assoc. reflexivity. Qed.
  Lemma x_A : 0 <= A.
  Proof. apply zlen_nonneg. Qed.
  Lemma x_shape : forall o, In o D' -> lay_shape o.
  Proof. intros o I. apply in_app_or in I. destruct I as [I | [<- | []]]; [exact (lx_objects _ _ _ _ _ LX o I) | exact (lx_stream _ _ _ _ _ LX)]. Qed.
  Lemma x_split : forall k o, In (k, o) objs -> exists pre r, file = (pre ++ [x0a]) ++ w_object o ++ r /\ k = zlen (pre ++ [x0a]) /\ In o D'.
  Proof.
    intros k o I. unfold objs in I. apply places_split in I. destruct I as (D1 & D2 & Q & ->). destruct (body_last D1) as [x QX]. exists x, (w_objects D2 ++ w_end A). split; [| split].
    - rewrite x_file, Q, <- QX. unfold w_objects at 1. rewrite flat_map_app. cbn [flat_map]. apps. reflexivity.
    - rewrite <- QX. symmetry. apply zlen_app.
    - rewrite Q. apply in_or_app. right. left. reflexivity.
  Qed.
  Lemma x_places : objs = w_places (zlen w_version) D ++ [(A, xs)].
  Proof. unfold objs, D'. rewrite places_app. cbn [w_places]. unfold A, w_body. rewrite zlen_app. reflexivity. Qed.
  Lemma x_headed : forall k o, In (k, o) objs -> headed_at file k (inum o) (igen o) (ival (as_written o)).
  Proof. intros k o I. destruct (x_split k o I) as (pre & r & QF & QK & ID). eapply shape_headed; [apply x_shape; exact ID | exact QF | exact QK]. Qed.
  Lemma x_only : only_at file (map fst objs).
  Proof.
    rewrite x_file. apply markers_tail; [exact x_shape | | apply end_calm, x_A | apply end_tame, x_A].
    intros b r Q. unfold w_end in Q. injection Q as <- _. div.
  Qed.

  (** ** The stream *)
  Lemma x_at : exists r, zdrop A file = w_object xs ++ r.
  Proof.
    exists (w_end A). unfold file, w_xdocument, w_body. unfold w_objects. rewrite flat_map_app. cbn [flat_map]. rewrite app_nil_r. fold (w_objects D).
    replace ((w_version ++ w_objects D ++ w_object xs) ++ w_end (zlen (w_version ++ w_objects D))) with ((w_version ++ w_objects D) ++ w_object xs ++ w_end A) by (unfold A, w_body; apps; reflexivity).
    unfold A, w_body. apply zdrop_app.
  Qed.
  Lemma x_data : exists s fl pl w ps l, ival (as_written xs) = ODict d /\ istream xs = Some s /\ filters_of d fl /\ parms_of d pl /\ (forall r, fl <> OName (lit "Crypt") :: r) /\
    decoded E fl pl (Some (w_data s)) (Some data) /\ widths_of d w /\ index_of d ps /\ stream_lines w ps data l true /\ (forall r, stream_parts xs d (w_data s) r) /\
    (forall k o, In (k, o) (w_places (zlen w_version) D) -> latest (inum o) l = Some (new_xentry k (igen o) 1)) /\ (forall n e, latest n l = Some e -> x_type e = 1 -> In n (map inum D')).
  Proof.
    destruct (lx_lines _ _ _ _ _ LX) as (l & XL & LI & LO). inversion XL as [d0 s fl pl data0 w ps l0 QV QS FO PO NC DC WO IX SL]; subst.
    destruct (stream_text xs s (lx_stream _ _ _ _ _ LX) QS) as (d' & QV' & SP). assert (d' = d) by congruence. subst d'.
    exists s, fl, pl, w, ps, l. do 10 (split; [assumption |]). split; [| exact LO].
    intros k o I. rewrite (LI k o I). f_equal. unfold line_entry, new_xentry.
    assert (I' : In (k, o) objs) by (rewrite x_places; apply in_or_app; left; exact I). destruct (x_split k o I') as (pre & r & QF & QK & ID). pose proof (lo_generation _ (x_shape o ID)) as GO.
    assert (KB : 0 <= k < 2 ^ 53).
    { pose proof (lx_size _ _ _ _ _ LX) as SZ. fold file in SZ. rewrite QF, zlen_app, <- QK in SZ. pose proof (zlen_nonneg _ (pre ++ [x0a])). match type of SZ with _ + zlen ?x < _ => pose proof (zlen_nonneg _ x) end. lia. }
    rewrite !wrap_small by lia. reflexivity.
  Qed.
  Lemma x_number : 0 < inum xs <= 2 ^ 53 /\ 0 <= igen xs <= 65535.
  Proof. split; [exact (lo_number _ (lx_stream _ _ _ _ _ LX)) | exact (lo_generation _ (lx_stream _ _ _ _ _ LX))]. Qed.
  Lemma x_readable : readable_at E file A (x_read xs data).
  Proof.
    destruct x_data as (s & fl & pl & w & ps & l & QV & QS & FO & PO & NC & DC & WO & IX & SL & SP & LI & LO). destruct x_at as [r ZA]. destruct x_number as [N1 N2].
    split; [apply x_A |]. cbn [x_read inum igen ival istream]. split; [lia |]. split; [lia |]. exists (w_head xs), (x0a :: w_value xs ++ x0a :: lit "endobj" ++ x0a :: r). split; [| split].
    - rewrite ZA. unfold w_object. apps. reflexivity.
    - apply head_header. exact (lx_stream _ _ _ _ _ LX).
    - destruct (SP (x0a :: lit "endobj" ++ x0a :: r)) as [P1 P2 P3 P4 P5]. rewrite QV, P1.
      apply bh_stream with (fl := fl) (pl := pl); try assumption.
      + apply gap_ws; [exact lf_ws | constructor].
      + apply gap_ws; [exact lf_ws | constructor].
      + intros b [].
      + apply ws_ends, lf_ws.
      + apply eb_lf.
      + intros x K. pose proof (lx_type _ _ _ _ _ LX) as TX. destruct K as (d1 & d2 & Q & NI). assert (K2 : entry d (lit "Type") = Some x).
        { rewrite Q. clear -NI. induction d1 as [| [a v] d1 IH]; [reflexivity |]. cbn [app entry]. destruct (list_eq_dec Byte.byte_eq_dec (lit "Type") a) as [<- | N]; [exfalso; apply NI; left; reflexivity |]. apply IH. intros I. apply NI. right. exact I. }
        rewrite TX in K2. injection K2 as <-. intros n g. discriminate.
  Qed.
  Lemma x_stream : exists w ps l, stream_at E file A (inum xs) (igen xs) x_behind d data /\ widths_of d w /\ index_of d ps /\ stream_lines w ps data l true /\ prev_of d None /\
    (forall k o, In (k, o) (w_places (zlen w_version) D) -> latest (inum o) l = Some (new_xentry k (igen o) 1)) /\ (forall n e, latest n l = Some e -> x_type e = 1 -> In n (map inum D')).
  Proof.
    destruct x_data as (s & fl & pl & w & ps & l & QV & QS & FO & PO & NC & DC & WO & IX & SL & SP & LI & LO). destruct x_at as [r ZA]. destruct x_number as [N1 N2].
    exists w, ps, l. split; [| split; [exact WO | split; [exact IX | split; [exact SL | split; [apply pv_none; exact (lx_prev _ _ _ _ _ LX) | split; [exact LI | exact LO]]]]]].
    destruct (SP (x0a :: lit "endobj" ++ x0a :: r)) as [P1 P2 P3 P4 P5].
    replace (inum xs) with (wrap64 (inum xs)) by (apply wrap_small; lia). replace (igen xs) with (wrap64 (igen xs)) by (apply wrap_small; lia).
    change data with (match Some data with Some x => x | None => [] end).
    eapply (sa_intro E file A (w_head xs) (inum xs) (igen xs) [x0a] (w_obj (ODict d)) d [x0a] [] [x0a] (w_data s) [x0a] (x0a :: lit "endobj" ++ x0a :: r) fl pl (Some data)); try eassumption.
    - apply header_head, head_header. exact (lx_stream _ _ _ _ _ LX).
    - apply gap_ws; [exact lf_ws | constructor].
    - apply gap_ws; [exact lf_ws | constructor].
    - intros b [].
    - apply ws_ends, lf_ws.
    - apply eb_lf.
    - apply x_A.
    - rewrite ZA. unfold w_object. rewrite <- app_assoc. cbn [app]. rewrite <- !app_assoc. cbn [app]. rewrite <- app_assoc. cbn [app]. rewrite P1. apps. reflexivity.
  Qed.

  (** ** Loading *)
  Definition x_table (l : list (Z * xentry)) : list (Z * xentry) := l ++ [(inum xs, own_entry x_behind (igen xs))].
  Lemma table_own : forall l, latest (inum xs) (x_table l) = Some (own_entry x_behind (igen xs)).
  Proof. intros l. unfold x_table. induction l as [| [k e] l IH]; cbn [app latest]; [rewrite Z.eqb_refl; reflexivity | rewrite IH; reflexivity]. Qed.
  Lemma table_other : forall l n, n <> inum xs -> latest n (x_table l) = latest n l.
  Proof. intros l n N. unfold x_table. induction l as [| [k e] l IH]; cbn [app latest]; [destruct (Z.eqb_spec (inum xs) n); [congruence | reflexivity] | rewrite IH; reflexivity]. Qed.
  Lemma x_step : forall w ps l, stream_at E file A (inum xs) (igen xs) x_behind d data -> widths_of d w -> index_of d ps -> stream_lines w ps data l true -> prev_of d None ->
    exists F, forall f p, (F <= f)%nat -> reads file p -> psh p = new_sechandler -> exists p', load_xref (S f) E file A [] p = Ok (tt, p') /\ reads file p' /\ log (prd p') = log (prd p) /\ psh p' = psh p /\
      (forall n, xget n (pxref p') = or_else (latest n (x_table l)) (xget n (pxref p))) /\ (forall k, entry (ptrailer p') k = or_else (entry d k) (entry (ptrailer p) k)).
  Proof.
    intros w ps l SA WO IX SL PV. destruct (stream_step E file A (inum xs) (igen xs) x_behind d data l true None new_sechandler SA (ss_lines _ _ _ _ _ _ WO IX SL) PV) as (F & ST).
    exists F. intros f p L W SH. destruct (ST [] f p (fun x => x) L W SH) as (s1 & W1 & L1 & R). cbv zeta in R. rewrite R.
    eexists. split; [reflexivity |]. cbn [prd pxref ptrailer psh with_xref with_trailer with_rd]. split; [exact W1 |]. split; [exact L1 |]. split; [reflexivity |]. split.
    - intros n. rewrite put_all_latest. cbn [own_lines]. fold (x_table l). destruct (Z.eq_dec n (inum xs)) as [-> | N]; [rewrite table_own; reflexivity |].
      unfold xget at 1, xset. rewrite (mget_mset_other Z.eqb Zeqb_ok) by exact N. reflexivity.
    - intros k. assert (ND : NoDup (map fst d)) by (inversion SA; subst; eapply obj_text_nodup; eassumption). rewrite merged_key by exact ND. destruct (entry d k); reflexivity.
  Qed.
  Lemma x_end : zdrop B file = lit "xref" ++ w_last A.
  Proof.
    replace file with ((w_body D' ++ x0a :: lit "start") ++ lit "xref" ++ w_last A) by (unfold file, w_xdocument, w_end, w_last; fold D' A; apps; reflexivity).
    replace B with (zlen (w_body D' ++ x0a :: lit "start")) by (rewrite zlen_app; reflexivity). apply zdrop_app.
  Qed.
  Lemma x_before : A < B.
  Proof. unfold A, B, D', w_body, w_objects. rewrite flat_map_app, !zlen_app. cbn [flat_map]. match goal with |- context [_ + (_ + zlen ?x)] => pose proof (zlen_nonneg _ x) end. lia. Qed.
  Lemma x_offsets : find_xref_offsets file = [B].
  Proof.
    destruct (xref_positions file) as [SS IN]. set (P := w_body D' ++ x0a :: lit "start").
    assert (QF : file = P ++ lit "xref" ++ w_last A) by (unfold P, file, w_xdocument, w_end, w_last; fold D' A; apps; reflexivity).
    assert (LP : zlen P = B) by (unfold P; rewrite zlen_app; reflexivity).
    assert (NP : ~ occurs (lit "xref") P).
    { unfold P, w_body, w_version. intros O. apply (occurs_split _ _ x0a) in O; [| vm_compute; intuition discriminate | discriminate]. destruct O as [O | O]; [| revert O; apply occurs_check; vm_compute; reflexivity].
      rewrite <- app_assoc in O. cbn [app] in O. apply (occurs_split _ (lit "%PDF-1.7") x0a) in O; [| vm_compute; intuition discriminate | discriminate].
      destruct O as [O | O]; [revert O; apply occurs_check; vm_compute; reflexivity | exact (objects_xref D' x_shape O)]. }
    assert (NL : ~ occurs (lit "xref") (w_last A)).
    { intros (a & b & O). assert (I : In "x"%byte (w_last A)) by (rewrite O; apply in_or_app; right; left; reflexivity).
      unfold w_last in I. destruct I as [I | I]; [discriminate I |]. apply in_app_or in I. destruct I as [I | I]; [apply (dec_isdigit _ x_A) in I; discriminate I | vm_compute in I; intuition discriminate]. }
    assert (MEM : forall i, In i (find_xref_offsets file) <-> i = B).
    { intros i. rewrite IN. split.
      - intros (Bd & t & r & Z0 & ->). pose proof (ztake_zdrop _ i file (proj1 Bd)) as F. rewrite Z0 in F.
        assert (LU : zlen (ztake i file) = i) by (rewrite ztake_firstn by lia; unfold zlen in *; rewrite firstn_length; lia).
        rewrite QF in F at 2. symmetry in F. destruct (xref_next _ _ _ _ NP F) as [[Q _] | (u' & Q & F2)]; [rewrite <- LU, Q; exact LP |].
        exfalso. apply NL. exists u', r. exact F2.
      - intros ->. split; [| eexists; eexists; split; [apply x_end | reflexivity]]. rewrite QF, !zlen_app, LP. change (zlen (lit "xref")) with 4. pose proof x_before. pose proof x_A. pose proof (zlen_nonneg _ (w_last A)). lia. }
    clear - SS MEM. destruct (find_xref_offsets file) as [| a l]; [exfalso; apply (MEM B); reflexivity |].
    assert (a = B) by (apply MEM; left; reflexivity). subst a. f_equal. destruct l as [| b l]; [reflexivity |]. exfalso. inversion SS as [| ? ? _ FA]; subst. rewrite Forall_forall in FA.
    assert (b = B) by (apply MEM; right; left; reflexivity). specialize (FA b (or_introl eq_refl)). lia.
  Qed.
  Lemma x_start : start_xref_offset file = Some A.
  Proof.
    assert (AB : A < 2 ^ 53).
    { pose proof (lx_size _ _ _ _ _ LX) as SZ. fold file in SZ. destruct x_at as [r ZA]. assert (Q : zlen file = A + zlen (w_object xs ++ r)).
      { rewrite <- ZA. unfold A. unfold file, w_xdocument, w_body, w_objects. rewrite flat_map_app. rewrite !app_assoc. rewrite <- (app_assoc (w_version ++ flat_map w_object D)). rewrite zdrop_app, zlen_app. reflexivity. }
      pose proof (zlen_nonneg _ (w_object xs ++ r)). lia. }
    apply start_offset. split; [| lia]. apply (start_end _ (w_body D')); [pose proof x_A; lia |]. reflexivity.
  Qed.
  Definition x_entry (k : Z) (o : iobj) : xentry := if inum o =? inum xs then own_entry k (igen o) else new_xentry k (igen o) 1.
  Definition s_entry (k : Z) (o : iobj) : xentry :=
    if inum o =? inum xs then {| x_off := k; x_gen := igen o; x_type := 1; x_enc := false; x_stm := true |} else new_xentry k (igen o) 1.
  Lemma x_same : forall o, In o D' -> inum o = inum xs -> o = xs.
  Proof. intros o I Q. apply (nodup_same D'); [exact (lx_numbers _ _ _ _ _ LX) | exact I | apply in_or_app; right; left; reflexivity | exact Q]. Qed.
  Lemma x_listed : forall k o m e, In (k, o) objs -> marker_entry file k m e -> m = inum o /\ e = s_entry k o.
  Proof.
    intros k o m e I ME. destruct (x_split k o I) as (pre & r & QF & QK & ID). unfold s_entry. destruct (Z.eqb_spec (inum o) (inum xs)) as [Q | N].
    - apply x_same in Q; [| exact ID]. subst o. destruct x_data as (s & fl & pl & w & ps & l & QV & _). pose proof (x_headed k xs I) as H. rewrite QV in H.
      exact (headed_stream _ _ _ _ _ _ _ H (lx_type _ _ _ _ _ LX) ME).
    - apply (listed_entry _ _ _ _ _ _ ) with (1 := listed_text o file k pre r ltac:(apply in_app_or in ID; destruct ID as [ID | [Q | []]]; [exact (lx_objects _ _ _ _ _ LX o ID) | congruence]) QF QK). exact ME.
  Qed.
  (** before the encryption dictionary is looked for *)
  Lemma x_first : exists F, forall fuel ord, (F <= fuel)%nat -> (forall m, Permutation (ord m) m) ->
    exists p, first_part fuel E ord file (new_parser file) = Ok (tt, p) /\ reads file p /\ log (prd p) = [] /\ psh p = new_sechandler /\
      (forall k, entry (ptrailer p) k = entry d k) /\ offsets_ok (pxref p) /\
      (forall k o, In (k, o) objs -> xget (inum o) (pxref p) = Some (x_entry k o)) /\
      (forall n, SpecOut.in_use p n -> exists o, In o D' /\ inum o = n).
  Proof.
    destruct x_stream as (w & ps & l & SA & WO & IX & SL & PV & LI & LO). destruct (x_step w ps l SA WO IX SL PV) as (F0 & ST).
    exists (S (F0 + 2)). intros fuel ord F P. unfold first_part. unfold bind at 1.
    destruct (find_objects_records E file (new_parser file) fuel (open_wf file) eq_refl ltac:(lia)) as (ls & os & p1 & F1 & SC & RC & W1 & X1 & T1 & S1 & ND).
    destruct (find_objects_silent E file (new_parser file) fuel os p1 (open_wf file) eq_refl ltac:(lia) F1) as (l' & SC' & L1).
    assert (HA : forall i o, In (i, o) objs -> header_at file i (inum o)) by (intros i o I; eapply headed_header, x_headed, I).
    assert (L1' : log (prd p1) = []).
    { rewrite L1; [reflexivity |]. intros i I. assert (I2 : In i (map fst objs)).
      { refine (proj1 (scan_headers file (map fst objs) l' _ x_only SC' i) I). intros k K. apply in_map_iff in K. destruct K as ([k' o] & Q & K). cbn in Q. subst k'. exists (inum o). apply HA. exact K. }
      apply in_map_iff in I2. destruct I2 as ([i' o] & Q & I2). cbn in Q. subst i'. eapply headed_silent, x_headed, I2. }
    clear L1 SC' l'. rewrite F1.
    pose proof (markers_recorded s_entry file objs ls os HA x_listed x_only SC RC) as RO.
    assert (UN : forall k k' o, In (k, o) objs -> In (k', o) objs -> k = k').
    { assert (ND' : NoDup (map (fun p => inum (snd p)) objs)) by (unfold objs; rewrite place_numbers; exact (lx_numbers _ _ _ _ _ LX)). clear - ND'. induction objs as [| [a x] q IH]; intros k k' o I I'; [destruct I |].
      cbn [map snd] in ND'. inversion ND' as [| ? ? N ND2]; subst. destruct I as [I | I]; destruct I' as [I' | I']; [congruence | | | exact (IH ND2 k k' o I I')]; exfalso; apply N; apply in_map_iff.
      - exists (k', o). split; [cbn [snd]; congruence | exact I'].
      - exists (k, o). split; [cbn [snd]; congruence | exact I]. }
    assert (RD : forall n e, xget n os = Some e -> exists k o, In (k, o) objs /\ inum o = n /\ e = s_entry k o) by (intros n e Q; specialize (RO n); rewrite Q in RO; destruct RO as (i & o & [I _] & Q2 & Q3); eauto).
    assert (RI : forall k o, In (k, o) objs -> xget (inum o) os = Some (s_entry k o)).
    { intros k o I. specialize (RO (inum o)). destruct (xget (inum o) os) as [e |]; [| exfalso; exact (RO k o I eq_refl)]. destruct RO as (i & o' & [I' _] & Q2 & ->).
      destruct (x_split k o I) as (_ & _ & _ & _ & J1). destruct (x_split i o' I') as (_ & _ & _ & _ & J2). assert (o' = o) by (apply (nodup_same D' o' o (lx_numbers _ _ _ _ _ LX) J2 J1 Q2)). subst o'. rewrite (UN _ _ _ I I'). reflexivity. }
    assert (IA : In (A, xs) objs) by (rewrite x_places; apply in_or_app; right; left; reflexivity).
    assert (NS : filter (fun kv : Z * xentry => x_stm (snd kv)) os = [(inum xs, s_entry A xs)]).
    { apply one_stream; [exact ND | apply (mget_In Z.eqb Zeqb_ok); exact (RI A xs IA) | unfold s_entry; rewrite Z.eqb_refl; reflexivity |].
      intros k x I XS. assert (Q : xget k os = Some x) by (apply (In_mget Z.eqb Zeqb_ok); assumption). destruct (RD k x Q) as (i & o & I' & <- & ->). unfold s_entry in XS. destruct (Z.eqb_spec (inum o) (inum xs)) as [Q2 | _]; [exact Q2 | discriminate XS]. }
    unfold xref_offsets. rewrite x_offsets, NS, x_start. cbn [map app snd]. replace (x_off (s_entry A xs)) with A by (unfold s_entry; rewrite Z.eqb_refl; reflexivity).
    cbn [sortZ fold_right insertZ]. rewrite (proj2 (Z.leb_gt B A) x_before). cbn [app load_all]. unfold bind at 1. unfold pseek at 1.
    set (p2 := with_rd (seek file (zlen file) (prd p1)) p1).
    assert (W2 : reads file p2) by (apply sk_nonneg; apply zlen_nonneg).
    assert (L2 : log (prd p2) = []) by (unfold p2; cbn [prd with_rd]; rewrite sk_log by apply zlen_nonneg; exact L1').
    assert (S2 : psh p2 = new_sechandler) by exact S1.
    destruct fuel as [| f]; [lia |]. unfold bind at 1.
    destruct (ST f p2 ltac:(lia) W2 S2) as (p3 & R3 & W3 & L3 & S3 & X3 & T3). unfold bind at 1. rewrite R3.
    destruct (last_step E file B A f p3 ltac:(pose proof x_before; pose proof x_A; lia) x_A x_end W3) as (s4 & W4 & L4 & R4). unfold bind at 1. rewrite R4.
    destruct (ST f (with_rd s4 p3) ltac:(lia) W4 ltac:(cbn [psh with_rd]; congruence)) as (p5 & R5 & W5 & L5 & S5 & X5 & T5). unfold bind at 1. rewrite R5. unfold ret at 1.
    destruct (repair_does file (ord os) os p5 W5 ND (P os)) as (p6 & R6 & W6 & T6 & S6 & C6 & RP). rewrite R6.
    assert (TR : forall k, entry (ptrailer p6) k = entry d k).
    { intros k. rewrite T6, T5. cbn [ptrailer with_rd]. rewrite T3. unfold p2. cbn [ptrailer with_rd]. rewrite T1. cbn [ptrailer new_parser]. destruct (entry d k); reflexivity. }
    assert (XT : forall n, xget n (pxref p5) = latest n (x_table l)).
    { intros n. rewrite X5. cbn [pxref with_rd]. rewrite X3. unfold p2. cbn [pxref with_rd]. rewrite X1. destruct (latest n (x_table l)); reflexivity. }
    assert (XA : xget (inum xs) (pxref p6) = Some (own_entry A (igen xs))).
    { pose proof (XT (inum xs)) as Q. rewrite table_own in Q. destruct (RP (inum xs) (s_entry A xs) (own_entry x_behind (igen xs)) (RI A xs IA) Q) as [K _]; [cbn [x_off own_entry]; unfold x_behind; pose proof (zlen_nonneg _ (w_body D)); pose proof (zlen_nonneg _ (w_head xs)); lia |].
      rewrite K; [unfold s_entry; rewrite Z.eqb_refl; reflexivity |]. right. cbn [x_off own_entry].
      assert (NI : forall n, ~ int_at file x_behind n).
      { intros n. destruct x_at as [r ZA]. destruct (value_text xs) as [v QV]. destruct x_data as (s & fl & pl & w' & ps' & l' & QV' & _).
        apply (no_int file x_behind ("<"%byte :: flat_map (fun kv => x20 :: "/"%byte :: w_name (fst kv) ++ x20 :: w_obj (snd kv)) d ++ [">"%byte; ">"%byte] ++ v ++ x0a :: lit "endobj" ++ x0a :: r)).
        unfold x_behind. fold A. rewrite <- zdrop_zdrop by (apply zlen_nonneg || apply x_A). rewrite ZA. unfold w_object. rewrite <- app_assoc, zdrop_app. rewrite QV, QV'. cbn [w_obj]. apps. reflexivity. }
      intros [T | [T _]]; [exact (NI _ T) | pose proof (proj1 x_number); lia]. }
    assert (X6 : forall k o, In (k, o) objs -> xget (inum o) (pxref p6) = Some (x_entry k o)).
    { intros k o I. unfold x_entry. destruct (Z.eqb_spec (inum o) (inum xs)) as [Q | N].
      - destruct (x_split k o I) as (_ & _ & _ & _ & J1). apply x_same in Q; [| exact J1]. subst o. rewrite (UN _ _ _ I IA). exact XA.
      - rewrite x_places in I. apply in_app_or in I. destruct I as [I | [I | []]]; [| exfalso; apply N; congruence]. specialize (C6 (inum o)). rewrite XT, table_other, (LI k o I) in C6 by exact N.
        rewrite (RI k o) in C6 by (rewrite x_places; apply in_or_app; left; exact I). destruct C6 as (e' & Q6 & SM & OFF). rewrite Q6. f_equal. unfold s_entry in OFF. destruct (Z.eqb_spec (inum o) (inum xs)); [contradiction |].
        destruct SM as (M1 & M2 & M3 & M4). destruct e'. cbn in *. destruct OFF; subst; reflexivity. }
    assert (IU : forall n, SpecOut.in_use p6 n -> exists o, In o D' /\ inum o = n).
    { intros n (e & Q & TY). assert (I : In n (map inum D')).
      { specialize (C6 n). destruct (xget n os) as [s |] eqn:QS; [destruct (RD n s QS) as (k & o & I & <- & _); destruct (x_split k o I) as (_ & _ & _ & _ & J1); apply in_map; exact J1 |].
        rewrite XT in C6. rewrite C6 in Q. destruct (Z.eq_dec n (inum xs)) as [-> | N]; [unfold D'; rewrite map_app; apply in_or_app; right; left; reflexivity |]. rewrite table_other in Q by exact N. exact (LO n e Q TY). }
      apply in_map_iff in I. destruct I as (o & Q2 & I). eauto. }
    exists p6. split; [reflexivity |]. split; [exact W6 |]. split.
    { rewrite (repair_log file (ord os) p5 tt p6 W5); [| | exact R6]; [| eapply Permutation_NoDup; [symmetry; apply Permutation_map; apply P | exact ND]]. rewrite L5. cbn [prd with_rd]. rewrite L4, L3. exact L2. }
    split; [rewrite S6, S5; cbn [psh with_rd]; rewrite S3; exact S2 |]. split; [exact TR |]. split; [| split; [exact X6 | exact IU]].
    intros n e Q TY. destruct (IU n) as (o & I & <-); [exists e; auto |]. destruct (place_of D' o I) as (k & K). rewrite (X6 k o K) in Q. injection Q as <-. destruct (x_split k o K) as (pre & r & _ & -> & _).
    pose proof (zlen_nonneg _ (pre ++ [x0a])). unfold x_entry. destruct (_ =? _); cbn; lia.
  Qed.
  Lemma x_loaded : entry d (lit "Encrypt") = None -> exists F, forall fuel ord pw, (F <= fuel)%nat -> (forall m, Permutation (ord m) m) ->
    exists p, load fuel E ord file pw (new_parser file) = Ok (None, p) /\ reads file p /\ log (prd p) = [] /\ psh p = new_sechandler /\
      (forall k, entry (ptrailer p) k = entry d k) /\ offsets_ok (pxref p) /\
      (forall k o, In (k, o) objs -> xget (inum o) (pxref p) = Some (x_entry k o)) /\
      (forall n, SpecOut.in_use p n -> exists o, In o D' /\ inum o = n).
  Proof.
    intros NE. destruct x_first as (F & H). exists F. intros fuel ord pw L P. destruct (H fuel ord L P) as (p & FP & W & LG & SH & TR & R). exists p. split; [| auto].
    rewrite load_parts. unfold bind at 1. rewrite FP, dget_entry, TR, NE. reflexivity.
  Qed.
End XDoc.
