(** XUpdateLoadP.v -- what Load finds in a document that SpecXUpdate gives
    (C111). *)
From Verif Require Import Base BaseP Msg Reader ReaderP Num NumP Lexer Plain LexerP Obj ReadObj Bits Filters Env Getters Crypt GetObj GetObjP Regex Xref Load SpecLex SpecLexP SpecObj SpecObjP SpecNumP SpecFilters FiltersP
  SpecRead SpecFetch SpecLook SpecStream SpecScan RegexP ScanP StreamP StreamObjP CryptObjP ReadP StreamEx RepairP FetchP SpecOut SpecXref XrefP SpecRecover RecoverP ReadObjP ErrorsP SpecWrite WriteP WriteDocP WriteLoadP WriteOutP
  SpecXWrite XWriteP SpecUpdate StrayP SpecXUpdate XUpdateP TrailerP DocP.
From Coq Require Import Strings.String Sorting.Permutation Sorting.Sorted.

(** ** A cross-reference stream somewhere in a file *)
Section Stream.
  Variables (E : env) (file : bytes) (xs : iobj) (d : dict) (data : bytes) (l : list (Z * xentry)) (k : Z) (r : bytes).
  Hypothesis LS : lay_shape xs.
  Hypothesis TX : entry d (lit "Type") = Some (OName (lit "XRef")).
  Hypothesis XL : xref_lines E xs d data l.
  Hypothesis K0 : 0 <= k.
  Hypothesis ZA : zdrop k file = w_object xs ++ r.
  Lemma xs_value : ival (as_written xs) = ODict d.
  Proof. inversion XL; assumption. Qed.
  Lemma xs_readable : readable_at E file k (x_read xs data).
  Proof.
    inversion XL as [d0 s fl pl data0 w ps l0 QV QS FO PO NC DC WO IX SL]; subst. destruct (stream_text xs s LS QS) as (d' & QV' & SP). assert (d' = d) by congruence. subst d'.
    pose proof (lo_number _ LS) as N1. pose proof (lo_generation _ LS) as N2. split; [exact K0 |]. cbn [x_read inum igen ival istream]. split; [lia |]. split; [lia |].
    exists (w_head xs), (x0a :: w_value xs ++ x0a :: lit "endobj" ++ x0a :: r). split; [| split].
    - rewrite ZA. unfold w_object. apps. reflexivity.
    - apply head_header. exact LS.
    - destruct (SP (x0a :: lit "endobj" ++ x0a :: r)) as [P1 P2 P3 P4 P5]. rewrite QV, P1.
      apply bh_stream with (fl := fl) (pl := pl); try assumption.
      + apply gap_ws; [exact lf_ws | constructor].
      + apply gap_ws; [exact lf_ws | constructor].
      + intros b [].
      + apply ws_ends, lf_ws.
      + apply eb_lf.
      + intros x K. destruct K as (d1 & d2 & Q & NI). assert (K2 : entry d (lit "Type") = Some x).
        { rewrite Q. clear -NI. induction d1 as [| [a v] d1 IH]; [reflexivity |]. cbn [app entry]. destruct (list_eq_dec Byte.byte_eq_dec (lit "Type") a) as [<- | N]; [exfalso; apply NI; left; reflexivity |]. apply IH. intros I. apply NI. right. exact I. }
        rewrite TX in K2. injection K2 as <-. intros n g. discriminate.
  Qed.
  Lemma xs_stream : stream_at E file k (inum xs) (igen xs) (k + zlen (w_head xs)) d data /\ stream_says d data l true.
  Proof.
    inversion XL as [d0 s fl pl data0 w ps l0 QV QS FO PO NC DC WO IX SL]; subst. destruct (stream_text xs s LS QS) as (d' & QV' & SP). assert (d' = d) by congruence. subst d'.
    pose proof (lo_number _ LS) as N1. pose proof (lo_generation _ LS) as N2. split; [| exact (ss_lines _ _ _ _ _ _ WO IX SL)].
    destruct (SP (x0a :: lit "endobj" ++ x0a :: r)) as [P1 P2 P3 P4 P5].
    replace (inum xs) with (wrap64 (inum xs)) by (apply wrap_small; lia). replace (igen xs) with (wrap64 (igen xs)) by (apply wrap_small; lia).
    change data with (match Some data with Some x => x | None => [] end).
    eapply (sa_intro E file k (w_head xs) (inum xs) (igen xs) [x0a] (w_obj (ODict d)) d [x0a] [] [x0a] (w_data s) [x0a] (x0a :: lit "endobj" ++ x0a :: r) fl pl (Some data)); try eassumption.
    - apply header_head, head_header. exact LS.
    - apply gap_ws; [exact lf_ws | constructor].
    - apply gap_ws; [exact lf_ws | constructor].
    - intros b [].
    - apply ws_ends, lf_ws.
    - apply eb_lf.
    - rewrite ZA. unfold w_object. rewrite <- app_assoc. cbn [app]. rewrite <- !app_assoc. cbn [app]. rewrite <- app_assoc. cbn [app]. rewrite P1. apps. reflexivity.
  Qed.
  (** where its own entry points there is no number *)
  Lemma xs_no_int : forall n, ~ int_at file (k + zlen (w_head xs)) n.
  Proof.
    intros n. destruct (value_text xs) as [v QV].
    apply (no_int file _ ("<"%byte :: flat_map (fun kv => x20 :: "/"%byte :: w_name (fst kv) ++ x20 :: w_obj (snd kv)) d ++ [">"%byte; ">"%byte] ++ v ++ x0a :: lit "endobj" ++ x0a :: r)).
    rewrite <- zdrop_zdrop by (apply zlen_nonneg || exact K0). rewrite ZA. unfold w_object. rewrite <- app_assoc, zdrop_app. rewrite QV, xs_value. cbn [w_obj]. apps. reflexivity.
  Qed.
End Stream.

(** ** The sections *)
Definition melement := (xelement * list (Z * xentry))%type.
Definition m_off (m : melement) : Z := fst (fst (fst m)).
Definition m_rev (m : melement) : xrevision := snd (fst m).
Definition m_pos (m : melement) : Z := s_pos (fst m).
Definition m_behind (m : melement) : Z := m_pos m + zlen (w_head (xv_stream (m_rev m))).
Record says (E : env) (m : melement) : Prop := {
  sy_well : xlaid_well E (fst m);
  sy_lines : xref_lines E (xv_stream (m_rev m)) (xv_dict (m_rev m)) (xv_data (m_rev m)) (snd m);
  sy_in : forall k o, In (k, o) (w_places (m_off m) (xv_objects (m_rev m))) -> latest (inum o) (snd m) = Some (line_entry (k, igen o, true));
  sy_freed : forall n, In n (xv_freed (m_rev m)) -> exists e, latest n (snd m) = Some e /\ x_type e = 0;
  sy_only : forall n e, latest n (snd m) = Some e -> In n (xv_freed (m_rev m) ++ map inum (xv_all (m_rev m)))
}.
Lemma all_says : forall E L, Forall (xlaid_well E) L -> exists M, map fst M = L /\ Forall (says E) M.
Proof.
  intros E L. induction 1 as [| x L PW _ (M & QM & FM)]; [exists []; split; [reflexivity | constructor] |].
  destruct (gv_lines _ _ _ _ (xw_revision _ _ PW)) as (l & A & B & C & D). exists ((x, l) :: M). split; [cbn [map fst]; congruence |]. constructor; [split; assumption | exact FM].
Qed.
Definition m_section (m : melement) : section :=
  {| sc_entries := snd m ++ [(inum (xv_stream (m_rev m)), own_entry (m_behind m) (igen (xv_stream (m_rev m))))]; sc_trailer := xv_dict (m_rev m) |}.
Definition m_secs (M : list melement) : list section := rev (map m_section M).
Lemma latest_snoc_same : forall l n (e : xentry), latest n (l ++ [(n, e)]) = Some e.
Proof. induction l as [| [k e'] l IH]; intros n e; cbn [app latest]; [rewrite Z.eqb_refl; reflexivity | rewrite IH; reflexivity]. Qed.
Lemma latest_snoc_other : forall l n k (e : xentry), n <> k -> latest n (l ++ [(k, e)]) = latest n l.
Proof. intros l n k e N. induction l as [| [k' e'] l IH]; cbn [app latest]; [destruct (Z.eqb_spec k n); [congruence | reflexivity] | rewrite IH; reflexivity]. Qed.
Lemma newest_app : forall n l1 l2, newest n (l1 ++ l2) = or_else (newest n l1) (newest n l2).
Proof. intros n l1 l2. induction l1 as [| s l1 IH]; [reflexivity |]. cbn [app newest]. destruct (latest n (sc_entries s)); [reflexivity | exact IH]. Qed.
Lemma newest_key_app : forall k l1 l2, newest_key k (l1 ++ l2) = or_else (newest_key k l1) (newest_key k l2).
Proof. intros n l1 l2. induction l1 as [| s l1 IH]; [reflexivity |]. cbn [app newest_key]. destruct (entry (sc_trailer s) n); [reflexivity | exact IH]. Qed.
Lemma m_secs_snoc : forall M m, m_secs (M ++ [m]) = m_section m :: m_secs M.
Proof. intros M m. unfold m_secs. rewrite map_app, rev_app_distr. reflexivity. Qed.

Section Updated.
  Variables (E : env) (rs : list xrevision) (M : list melement).
  Hypothesis GU : lay_xupdates E rs.
  Let file := w_xupdated rs.
  Let lay := x_layout (zlen w_version) None rs.
  Hypothesis QM : map fst M = lay.
  Hypothesis SY : Forall (says E) M.
  Lemma m_says : forall m, In m M -> says E m.
  Proof. rewrite Forall_forall in SY. exact SY. Qed.
  Lemma m_lay : forall m, In m M -> In (fst m) lay.
  Proof. intros m I. rewrite <- QM. apply in_map. exact I. Qed.
  Lemma m_at : forall m, In m M -> exists r, zdrop (m_pos m) file = w_object (xv_stream (m_rev m)) ++ r.
  Proof.
    intros m I. pose proof (m_lay m I) as IL. assert (IP : In (m_pos m, xv_stream (m_rev m)) (raw_places (fst m))) by (rewrite raw_are; apply in_or_app; right; left; reflexivity).
    destruct (xu_split rs (fst m) _ _ IL IP) as (pre & r & QF & QK). exists r. unfold file. rewrite QF, QK. apply zdrop_app.
  Qed.
  Lemma m_nonneg : forall m, In m M -> 0 <= m_pos m.
  Proof. intros m I. apply s_nonneg. exact (xw_off _ _ (sy_well _ _ (m_says m I))). Qed.
  Lemma m_step : forall m, In m M -> exists F, forall seen f p, ~ In (m_pos m) seen -> (F <= f)%nat -> reads file p -> psh p = new_sechandler -> exists s1, wf file s1 /\ log s1 = log (prd p) /\
    load_xref (S f) E file (m_pos m) seen p =
      bind (follow_prev f E file (snd (fst (fst m))) (m_pos m :: seen)) (fun _ p2 =>
        Ok (tt, with_xref (put_all (sc_entries (m_section m)) (pxref p2)) (with_trailer (mmerge bseq (ptrailer p2) (xv_dict (m_rev m))) p2)))
        (with_xref (xset (inum (xv_stream (m_rev m))) (own_entry (m_pos m) (igen (xv_stream (m_rev m)))) (pxref p)) (with_rd s1 p)).
  Proof.
    intros m I. pose proof (m_says m I) as Sm. pose proof (xw_revision _ _ (sy_well _ _ Sm)) as G. destruct (m_at m I) as [r ZA].
    destruct (xs_stream E file _ _ _ _ _ r (gv_stream _ _ _ _ G) (sy_lines _ _ Sm) (m_nonneg m I) ZA) as [SA SS].
    assert (PV : prev_of (xv_dict (m_rev m)) (snd (fst (fst m)))).
    { pose proof (gv_prev _ _ _ _ G) as Q. destruct (snd (fst (fst m))) as [q |] eqn:QP; [| apply pv_none; exact Q].
      pose proof (xw_prev _ _ (sy_well _ _ Sm) q QP) as B. pose proof (xw_stream _ _ (sy_well _ _ Sm)) as B2. rewrite <- (num_int_of_Z q) by lia. apply pv_some. exact Q. }
    destruct (stream_step E file _ _ _ _ _ _ _ true _ new_sechandler SA SS PV) as (F & ST). exists F. intros seen f p NI L W SH. destruct (ST seen f p NI L W SH) as (s1 & W1 & L1 & R). exists s1. auto.
  Qed.
  Lemma dict_nodup : forall m, In m M -> NoDup (map fst (xv_dict (m_rev m))).
  Proof.
    intros m I. pose proof (m_says m I) as Sm. pose proof (xw_revision _ _ (sy_well _ _ Sm)) as G. pose proof (written_printable _ (gv_stream _ _ _ _ G)) as P. change (snd (fst m)) with (m_rev m) in P.
    rewrite (xs_value E _ _ _ _ (sy_lines _ _ Sm)) in P. exact (proj1 P).
  Qed.
  Lemma m_chain : forall M1 m M2, M = M1 ++ m :: M2 -> exists F, forall fuel seen p, (F <= fuel)%nat -> (forall q, In q seen -> m_pos m < q) -> reads file p -> psh p = new_sechandler -> exists p',
    load_xref fuel E file (m_pos m) seen p = Ok (tt, p') /\ reads file p' /\ log (prd p') = log (prd p) /\ psh p' = psh p /\
    (forall n, xget n (pxref p') = or_else (newest n (m_secs (M1 ++ [m]))) (xget n (pxref p))) /\
    (forall k, entry (ptrailer p') k = or_else (newest_key k (m_secs (M1 ++ [m]))) (entry (ptrailer p) k)).
  Proof.
    induction M1 as [| y M1 IH] using rev_ind; intros m M2 Q.
    all: assert (I : In m M) by (rewrite Q; apply in_or_app; right; left; reflexivity).
    all: destruct (m_step m I) as (F & ST); pose proof (dict_nodup m I) as ND.
    all: assert (QL : lay = map fst (M2) -> True) by auto; clear QL.
    all: destruct m as [[[o q] r] l]; pose proof QM as QL; rewrite Q, map_app in QL; cbn [map fst] in QL; symmetry in QL.
    all: destruct (xlayout_split _ _ _ _ _ _ _ _ QL) as (rs1 & rs2 & a & _ & _ & _ & _ & CS).
    all: set (m := ((o, q, r), l) : melement) in *.
    - exists (S F). intros fuel seen p L SN W SH. destruct fuel as [| f]; [lia |]. assert (NI : ~ In (m_pos m) seen) by (intros K; apply SN in K; lia).
      destruct (ST seen f p NI ltac:(lia) W SH) as (s1 & W1 & L1 & R). destruct CS as [(_ & _ & _ & QP) | (? & L' & ? & _ & _ & QX & _)]; [| destruct L'; discriminate QX]. rewrite R. cbn [fst snd m]. rewrite QP. cbn [follow_prev].
      eexists. split; [reflexivity |]. cbn [prd pxref ptrailer psh with_xref with_trailer with_rd]. split; [exact W1 |]. split; [exact L1 |]. split; [reflexivity |]. cbn [app]. unfold m_secs. cbn [map rev app newest newest_key]. split.
      + intros n. rewrite put_all_latest. destruct (latest n (sc_entries (m_section m))) eqn:QN; [reflexivity |]. cbn [or_else]. unfold xget, xset. rewrite (mget_mset_other Z.eqb Zeqb_ok); [reflexivity |].
        intros ->. cbn [m_section sc_entries] in QN. rewrite latest_snoc_same in QN. discriminate QN.
      + intros k. rewrite merged_key by exact ND. cbn [m_section sc_trailer]. destruct (entry _ k); reflexivity.
    - destruct CS as [(QX & _) | (a' & L' & z & _ & _ & QX & QP)]; [destruct M1; discriminate QX |].
      rewrite map_app in QX. cbn [map] in QX. apply app_inj_tail in QX. destruct QX as [_ <-]. fold (m_pos y) in QP.
      assert (Q2 : M = M1 ++ y :: m :: M2) by (rewrite Q; apps; reflexivity). destruct (IH y (m :: M2) Q2) as (F2 & H2).
      assert (LT : m_pos y < m_pos m) by (apply (xw_prev _ _ (sy_well _ _ (m_says m I))); exact QP).
      exists (S (F + F2)). intros fuel seen p L SN W SH. destruct fuel as [| f]; [lia |]. assert (NI : ~ In (m_pos m) seen) by (intros K; apply SN in K; lia).
      destruct (ST seen f p NI ltac:(lia) W SH) as (s1 & W1 & L1 & R). rewrite R. cbn [fst snd m]. rewrite QP. cbn [follow_prev].
      match goal with |- context [bind _ _ ?s] => set (p1 := s) end.
      destruct (H2 f (m_pos m :: seen) p1 ltac:(lia)) as (p2 & R2 & W2 & G2 & S2 & X2 & T2).
      { intros c [<- | K]; [exact LT |]. apply SN in K. lia. }
      { exact W1. }
      { exact SH. }
      unfold bind at 1. rewrite R2. eexists. split; [reflexivity |]. cbn [prd pxref ptrailer psh with_xref with_trailer with_rd]. split; [exact W2 |]. split; [rewrite G2; exact L1 |]. split; [rewrite S2; reflexivity |].
      rewrite m_secs_snoc. cbn [newest newest_key]. split.
      + intros n. rewrite put_all_latest, X2. destruct (latest n (sc_entries (m_section m))) eqn:QN; [reflexivity |]. cbn [or_else]. f_equal. unfold p1. cbn [pxref with_xref]. unfold xget, xset. rewrite (mget_mset_other Z.eqb Zeqb_ok); [reflexivity |].
        intros ->. cbn [m_section sc_entries] in QN. rewrite latest_snoc_same in QN. discriminate QN.
      + intros k. rewrite merged_key by exact ND. rewrite T2. cbn [m_section sc_trailer]. destruct (entry _ k); reflexivity.
  Qed.

  (** ** Every "xref" *)
  Definition t_pos (x : xelement) : Z := fst (fst x) + zlen (w_objects (xv_all (snd x))) + 6.
  Lemma xrefs_in : forall rs' off prev u v, Forall (xlaid_well E) (x_layout off prev rs') -> w_xrevisions off rs' = u ++ lit "xref" ++ v ->
    exists x, In x (x_layout off prev rs') /\ off + zlen u = t_pos x.
  Proof.
    induction rs' as [| r rs' IH]; intros off prev u v LW Q; [destruct u; discriminate Q |]. cbn [w_xrevisions x_layout] in *. inversion LW as [| ? ? PW LW']; subst.
    set (R := w_xrevisions _ rs') in *. pose proof (objects_xref _ (all_shape _ _ _ _ (xw_revision _ _ PW))) as NO. cbn [fst snd] in NO. set (T := w_stream_at off r) in *.
    assert (QR : w_xrevision off r ++ R = (w_objects (xv_all r) ++ x0a :: lit "start") ++ lit "xref" ++ w_last T ++ R) by (unfold w_xrevision, w_end, w_last; fold T; apps; reflexivity).
    assert (NP : ~ occurs (lit "xref") (w_objects (xv_all r) ++ x0a :: lit "start")).
    { intros O. apply (occurs_split _ _ x0a) in O; [| vm_compute; intuition discriminate | discriminate]. destruct O as [O | O]; [exact (NO O) | revert O; apply occurs_check; vm_compute; reflexivity]. }
    rewrite QR in Q. destruct (xref_next _ _ _ _ NP Q) as [[-> _] | (u' & -> & Q2)].
    { exists (off, prev, r). split; [left; reflexivity |]. unfold t_pos. cbn [fst snd]. rewrite zlen_app. change (zlen (x0a :: lit "start")) with 6. lia. }
    assert (NX : ~ In "x"%byte (w_last T)).
    { intros I. unfold w_last in I. destruct I as [I | I]; [discriminate I |]. apply in_app_or in I. destruct I as [I | I]; [apply (dec_isdigit _ (s_nonneg off r (xw_off _ _ PW))) in I; discriminate I | vm_compute in I; intuition discriminate]. }
    destruct (not_in_first _ _ _ u' (lit "ref" ++ v) NX Q2) as (u3 & -> & Q4).
    destruct (IH _ _ u3 v LW' Q4) as (x & I & C). exists x. split; [right; exact I |]. rewrite <- C.
    replace (zlen (w_xrevision off r)) with (zlen ((w_objects (xv_all r) ++ x0a :: lit "start") ++ lit "xref" ++ w_last T)) by (unfold w_xrevision, w_end, w_last; fold T; f_equal; apps; reflexivity). rewrite !zlen_app. lia.
  Qed.
  Lemma xrefs_only : forall i, In i (find_xref_offsets file) -> exists x, In x lay /\ i = t_pos x.
  Proof.
    intros i I. apply (proj2 (xref_positions file)) in I. destruct I as (B & t & r & Z0 & ->). pose proof (ztake_zdrop _ i file (proj1 B)) as F. rewrite Z0 in F.
    assert (LU : zlen (ztake i file) = i) by (rewrite ztake_firstn by lia; unfold zlen in *; rewrite firstn_length; lia). set (u := ztake i file) in *.
    assert (NX : ~ In "x"%byte w_version) by (vm_compute; intuition discriminate).
    destruct (not_in_first _ _ (w_xrevisions (zlen w_version) rs) u (lit "ref" ++ r) NX) as (u' & QU & Q); [symmetry; exact F |].
    destruct (xrefs_in rs _ None u' r (xupdated_laid E rs GU) Q) as (x & I & C). exists x. split; [exact I |]. rewrite <- LU, QU, zlen_app. exact C.
  Qed.

  (** ** The "xref" of each "startxref" *)
  Lemma t_read : forall x f p, In x lay -> reads file p -> exists s1 d, wf file s1 /\ log s1 = log (prd p) /\ (d = [] \/ xfirst_of rs d) /\ NoDup (map fst d) /\
    load_xref (S f) E file (t_pos x) [] p = Ok (tt, with_trailer (mmerge bseq (ptrailer p) d) (with_rd s1 p)).
  Proof.
    intros [[o q] r] f p I W. pose proof (xupdated_laid E rs GU) as LW. rewrite Forall_forall in LW. pose proof (LW _ I) as PW. pose proof (xw_off _ _ PW) as O0. cbn [fst snd] in O0. pose proof (s_nonneg o r O0) as TN.
    assert (O : 0 <= t_pos (o, q, r)) by (unfold t_pos; cbn [fst snd]; match goal with |- context [_ + zlen ?x] => pose proof (zlen_nonneg _ x) end; lia).
    pose proof I as I0. apply in_split in I. destruct I as (L1 & L2 & QL). destruct (xlayout_split _ _ _ _ _ _ _ _ QL) as (rs1 & rs2 & a & Qrs & QR & QL2 & QO & _). set (o2 := o + zlen (w_xrevision o r)) in *.
    set (T := w_stream_at o r) in *.
    assert (Z0 : zdrop (t_pos (o, q, r)) file = lit "xref" ++ w_last T ++ w_xrevisions o2 rs2).
    { unfold file, w_xupdated. rewrite QR. unfold w_xrevision, w_end. fold T.
      match goal with |- zdrop _ ?x = ?y => replace x with ((w_version ++ a ++ w_objects (xv_all r) ++ x0a :: lit "start") ++ y) by (unfold w_last; apps; reflexivity) end.
      replace (t_pos (o, q, r)) with (zlen (w_version ++ a ++ w_objects (xv_all r) ++ x0a :: lit "start")); [apply zdrop_app |]. unfold t_pos. cbn [fst snd]. rewrite !zlen_app. change (zlen (x0a :: lit "start")) with 6. lia. }
    set (G := x0a :: lit "%%EOF" ++ [x0a]).
    assert (Z1 : zdrop (t_pos (o, q, r)) file = lit "xref" ++ [x0a] ++ dec T ++ G ++ w_xrevisions o2 rs2) by (rewrite Z0; unfold w_last, G; apps; reflexivity).
    assert (GG : gap G). { unfold G. apply gap_ws; [exact lf_ws |]. change (gap ("%"%byte :: lit "%EOF" ++ x0a :: [])). apply gap_comment; [| left; reflexivity | constructor]. intros b K [-> | ->]; vm_compute in K; intuition discriminate. }
    destruct rs2 as [| r2 rs2].
    - destruct (word_stray E file (t_pos (o, q, r)) [x0a] (dec T) T G f p O) as (s1 & A & B & C); [rewrite Z1; cbn [w_xrevisions]; rewrite app_nil_r; reflexivity | apply gap1, lf_ws | discriminate | apply dec_text; exact TN | left; exact (blank_gap _ GG) | exact W |].
      exists s1, []. split; [exact A |]. split; [exact B |]. split; [left; reflexivity |]. split; [constructor |]. rewrite C. destruct p as [x1 x2 x3 x4]. reflexivity.
    - cbn [w_xrevisions] in Z1. set (R := w_xrevisions _ rs2) in Z1.
      assert (I2 : In (o2, Some T, r2) lay) by (rewrite QL, QL2; apply in_or_app; right; right; left; reflexivity). pose proof (LW _ I2) as PW2.
      assert (IT : In r2 (tl rs)) by (rewrite Qrs; destruct rs1 as [| ? rs1]; cbn [app tl]; [left; reflexivity | apply in_or_app; right; right; left; reflexivity]).
      destruct (gxu_harmless _ _ GU r2 IT) as (ob & D & QD & HA).
      assert (Go : lay_object ob) by (apply (gv_objects _ _ _ _ (xw_revision _ _ PW2)); cbn [snd]; rewrite QD; left; reflexivity).
      destruct (text_stray E file (t_pos (o, q, r)) [x0a] (dec T) T G (w_head ob) (inum ob) (igen ob) (x0a :: w_value ob ++ x0a :: lit "endobj" ++ x0a :: w_objects (D ++ [xv_stream r2]) ++ w_end (w_stream_at o2 r2) ++ R) (ival (as_written ob)) f p O) as (s1 & d & A & B & C & ND & L).
      + rewrite Z1. unfold w_xrevision, xv_all. rewrite QD. cbn [app]. unfold w_objects at 1. cbn [flat_map]. unfold w_object at 1. fold (w_objects (D ++ [xv_stream r2])). apps. reflexivity.
      + apply gap1, lf_ws.
      + discriminate.
      + apply dec_text. exact TN.
      + exact GG.
      + discriminate.
      + apply head_header. exact Go.
      + pose proof (lo_number _ Go). lia.
      + apply ws_ends, lf_ws.
      + destruct (value_text ob) as [v QV]. exists [x0a], (w_obj (ival (as_written ob))). eexists. split; [rewrite QV; apps; reflexivity |]. split; [apply gap1, lf_ws | apply w_obj_text, written_printable, Go].
      + intros d Qd. destruct (lay_entry ob d (lit "Prev") Go Qd ltac:(discriminate)) as (d0 & Q0 & ->). apply no_entry. exact (proj1 (HA d0 Q0)).
      + exact W.
      + exists s1, d. split; [exact A |]. split; [exact B |]. split; [| split; [exact ND | exact L]]. destruct C as [C | C]; [left; exact C | right; exists r2, ob, D; auto].
  Qed.
  Lemma xfirst_plain : forall d, xfirst_of rs d -> entry d (lit "Encrypt") = None.
  Proof.
    intros d (r & o & D & IT & QD & QV). destruct (gxu_harmless _ _ GU r IT) as (o' & D' & QD' & HA). assert (o' = o) by congruence. subst o'.
    assert (Go : lay_object o).
    { assert (IR : In r rs) by (destruct rs; [destruct IT | right; exact IT]). assert (IL : exists x, In x lay /\ snd x = r).
      { unfold lay. clear - IR. generalize (zlen w_version), (@None Z). induction rs as [| r0 l IH]; intros off pv; [destruct IR |]. cbn [x_layout]. destruct IR as [-> | IR]; [eexists; split; [left; reflexivity | reflexivity] |]. destruct (IH IR (off + zlen (w_xrevision off r0)) (Some (w_stream_at off r0))) as (x & Ix & Q). exists x. split; [right; exact Ix | exact Q]. }
      destruct IL as (x & Ix & Qx). pose proof (xupdated_laid E rs GU) as LW. rewrite Forall_forall in LW. apply (gv_objects _ _ _ _ (xw_revision _ _ (LW x Ix))). rewrite Qx, QD. left. reflexivity. }
    destruct (lay_entry o d (lit "Encrypt") Go QV ltac:(discriminate)) as (d0 & Q0 & ->). apply no_entry. exact (proj2 (HA d0 Q0)).
  Qed.
End Updated.
