(** UpdateLoadP.v -- what Load finds in a document that SpecUpdate gives
    (C95). *)
From Verif Require Import Base BaseP Msg Reader ReaderP Num NumP Lexer Plain LexerP Obj ReadObj Bits Filters Env Getters Crypt GetObj GetObjP Regex Xref Load SpecLex SpecLexP SpecObj SpecObjP SpecNumP SpecFilters FiltersP
  SpecRead SpecFetch SpecLook SpecStream SpecScan RegexP ScanP StreamP StreamObjP CryptObjP ReadP StreamEx RepairP FetchP SpecOut SpecXref XrefP SpecRecover RecoverP ReadObjP ErrorsP SpecWrite WriteP WriteDocP WriteLoadP
  SpecUpdate StrayP UpdateP TrailerP DocP.
From Coq Require Import Strings.String Sorting.Permutation Sorting.Sorted.

(** ** The tables *)
Definition u_lines (F : list Z) (l : list (Z * iobj)) : list (Z * list line) :=
  (0, [(0, 65535, false)]) :: map (fun n => (n, [(0, 65535, false)])) F ++ map (fun p => (inum (snd p), [(fst p, igen (snd p), true)])) l.
Lemma entries_text : forall F l, (forall n, In n F -> 0 < n <= 2 ^ 53) -> (forall p, In p l -> good_place p) -> table_text (w_entries F l) (u_lines F l).
Proof.
  intros F l GF G. unfold w_entries, u_lines.
  assert (Q : forall z, (lit "0 1" ++ x0a :: w_line 0 65535 (lit "f")) ++ z = lit "0" ++ [x20] ++ lit "1" ++ [x0a] ++ w_line 0 65535 (lit "f") ++ z) by (intros z; apps; reflexivity).
  rewrite Q. clear Q. apply tt_cons; [exact (dec_text 0 ltac:(lia)) | apply gap1, sp_ws | discriminate | exact one_text | apply gap1, lf_ws | discriminate | cbn; lia | apply (one_line 0 65535 false); lia |].
  induction F as [| n F IH].
  - cbn [flat_map map app]. clear GF. induction l as [| p l IH]; [constructor |]. cbn [flat_map map]. destruct (G p (or_introl eq_refl)) as [B Go]. destruct Go as [N1 N2 _ _].
    assert (Q : w_sub p ++ flat_map w_sub l = dec (inum (snd p)) ++ [x20] ++ lit "1" ++ [x0a] ++ w_line (fst p) (igen (snd p)) (lit "n") ++ flat_map w_sub l) by (unfold w_sub; apps; reflexivity).
    rewrite Q. clear Q. apply tt_cons; [apply dec_text; lia | apply gap1, sp_ws | discriminate | exact one_text | apply gap1, lf_ws | discriminate | cbn; lia | apply (one_line (fst p) (igen (snd p)) true); [exact B | exact N2] |].
    apply IH. intros q I. apply G. right. exact I.
  - cbn [flat_map map app]. assert (Q : forall z, (w_free n ++ flat_map w_free F) ++ z = dec n ++ [x20] ++ lit "1" ++ [x0a] ++ w_line 0 65535 (lit "f") ++ (flat_map w_free F ++ z)) by (intros z; unfold w_free; apps; reflexivity).
    rewrite Q. clear Q. pose proof (GF n (or_introl eq_refl)). apply tt_cons; [apply dec_text; lia | apply gap1, sp_ws | discriminate | exact one_text | apply gap1, lf_ws | discriminate | cbn; lia | apply (one_line 0 65535 false); lia |].
    apply IH. intros m I. apply GF. right. exact I.
Qed.
Definition free_entry : xentry := new_xentry 0 65535 0.
Definition use_entry (p : Z * iobj) : xentry := new_xentry (fst p) (igen (snd p)) 1.
Lemma u_lines_are : forall F l, (forall n, In n F -> 0 < n <= 2 ^ 53) -> (forall p, In p l -> good_place p) ->
  table_lines (u_lines F l) = (0, free_entry) :: map (fun n => (n, free_entry)) F ++ map (fun p => (inum (snd p), use_entry p)) l.
Proof.
  intros F l GF G. unfold table_lines, u_lines. cbn [flat_map]. cbn [fst snd map number_from app]. change (wrap64 0) with 0. f_equal. rewrite flat_map_app. f_equal.
  - induction F as [| n F IH]; [reflexivity |]. cbn [map flat_map fst snd number_from app]. rewrite IH by (intros m I; apply GF; right; exact I). f_equal.
    pose proof (GF n (or_introl eq_refl)). rewrite wrap_small by lia. reflexivity.
  - induction l as [| p l IH]; [reflexivity |]. cbn [map flat_map fst snd number_from app]. rewrite IH by (intros q I; apply G; right; exact I). f_equal.
    destruct (G p (or_introl eq_refl)) as [B Go]. destruct Go as [N1 N2 _ _]. unfold line_entry, use_entry, new_xentry. rewrite !wrap_small by lia. reflexivity.
Qed.
Definition u_section (x : Z * option Z * revision) : section :=
  {| sc_entries := table_lines (u_lines (rv_freed (snd x)) (w_places (fst (fst x)) (rv_objects (snd x)))); sc_trailer := with_prev (snd (fst x)) (rv_trailer (snd x)) |}.

Section Updated.
  Variables (E : env) (rs : list revision).
  Hypothesis GU : lay_updates rs.
  Let file := w_updated rs.
  Let lay := w_layout (zlen w_version) None rs.
  Definition table_pos (x : Z * option Z * revision) : Z := w_table_at (fst (fst x)) (snd x).
  Definition start_pos (x : Z * option Z * revision) : Z :=
    table_pos x + 4 + zlen (w_mid (rv_freed (snd x)) (w_places (fst (fst x)) (rv_objects (snd x))) (with_prev (snd (fst x)) (rv_trailer (snd x)))).
  Lemma lay_ok : forall x, In x lay -> laid_well x.
  Proof. intros x I. pose proof (updated_laid rs GU) as LW. rewrite Forall_forall in LW. exact (LW x I). Qed.
  Lemma table_at_u : forall o q r, In (o, q, r) lay -> exists z, zdrop (w_table_at o r) file = lit "xref" ++ w_mid (rv_freed r) (w_places o (rv_objects r)) (with_prev q (rv_trailer r)) ++ lit "xref" ++ w_last (w_table_at o r) ++ z.
  Proof.
    intros o q r I. apply in_split in I. destruct I as (L1 & L2 & QL). destruct (layout_split _ _ _ _ _ _ _ _ QL) as (rs1 & rs2 & a & _ & QR & _ & QO & _). set (R := w_revisions _ _ rs2) in QR. exists R.
    unfold file, w_updated. rewrite QR, revision_parts. unfold w_rtail.
    match goal with |- zdrop _ ?x = ?y => replace x with ((w_version ++ a ++ w_objects (rv_objects r)) ++ y) by (apps; reflexivity) end.
    replace (w_table_at o r) with (zlen (w_version ++ a ++ w_objects (rv_objects r))) at 1; [apply zdrop_app |]. unfold w_table_at. rewrite !zlen_app. lia.
  Qed.
  Lemma table_data : forall o q r, In (o, q, r) lay -> exists g0 g1 T g2 t z,
    zdrop (w_table_at o r) file = g0 ++ lit "xref" ++ g1 ++ T ++ lit "trailer" ++ g2 ++ t ++ z /\
    gap g0 /\ gap g1 /\ g1 <> [] /\ table_text T (u_lines (rv_freed r) (w_places o (rv_objects r))) /\ gap g2 /\ obj_text t (ODict (with_prev q (rv_trailer r))) /\
    zlen (g0 ++ lit "xref" ++ g1 ++ T ++ lit "trailer" ++ g2) mod bufsize <> bufsize - 1 /\ prev_of (with_prev q (rv_trailer r)) q.
  Proof.
    intros o q r I. pose proof (lay_ok _ I) as PW. unfold laid_well in PW. cbn [fst snd] in PW. destruct (table_at_u o q r I) as [z Z0]. set (F := rv_freed r) in *. set (l := w_places o (rv_objects r)) in *. set (d := with_prev q (rv_trailer r)) in *.
    exists [], [x0a], (w_entries F l), (w_break (lit "xref" ++ x0a :: w_entries F l ++ lit "trailer")), (w_obj (ODict d)). eexists.
    split; [| split; [constructor | split; [apply gap1, lf_ws | split; [discriminate | split; [| split; [apply break_gap | split; [apply w_obj_text; eapply prev_printable; exact PW | split]]]]]]].
    - rewrite Z0. unfold w_mid. apps. reflexivity.
    - apply entries_text; [exact (lv_freed _ (pw_revision _ _ _ PW)) | exact (pw_places _ _ _ PW)].
    - match goal with |- zlen ?x mod _ <> _ => replace x with ((lit "xref" ++ x0a :: w_entries F l ++ lit "trailer") ++ w_break (lit "xref" ++ x0a :: w_entries F l ++ lit "trailer")) by (apps; reflexivity) end. apply break_ok.
    - unfold d. pose proof (lv_prev _ (pw_revision _ _ _ PW)) as NP. destruct q as [q |]; cbn [with_prev]; [| apply pv_none, no_entry; exact NP].
      pose proof (pw_prev _ _ _ PW q eq_refl) as BQ. assert (QQ : num_int (num_of_Z q) = q) by (apply num_int_of_Z; assert (10 ^ 10 < 2 ^ 53) by reflexivity; lia).
      rewrite <- QQ at 2. apply pv_some. clear - NP. induction (rv_trailer r) as [| [k x] d IH]; [reflexivity |]. cbn [app entry]. destruct (list_eq_dec Byte.byte_eq_dec (lit "Prev") k) as [QK | NK]; [exfalso; apply NP; left; symmetry; exact QK |].
      apply IH. intros I. apply NP. right. exact I.
  Qed.

  (** ** The chain of tables *)
  Lemma newest_app : forall n l1 l2, newest n (l1 ++ l2) = or_else (newest n l1) (newest n l2).
  Proof. intros n l1 l2. induction l1 as [| s l1 IH]; [reflexivity |]. cbn [app newest]. destruct (latest n (sc_entries s)); [reflexivity | exact IH]. Qed.
  Lemma newest_key_app : forall k l1 l2, newest_key k (l1 ++ l2) = or_else (newest_key k l1) (newest_key k l2).
  Proof. intros n l1 l2. induction l1 as [| s l1 IH]; [reflexivity |]. cbn [app newest_key]. destruct (entry (sc_trailer s) n); [reflexivity | exact IH]. Qed.
  Definition secs_to (L : list (Z * option Z * revision)) : list section := rev (map u_section L).
  Lemma chain_read : forall L1 x L2, lay = L1 ++ x :: L2 -> forall fuel seen p, (List.length L1 < fuel)%nat -> (forall q, In q seen -> table_pos x < q) -> reads file p -> exists p',
    load_xref fuel E file (table_pos x) seen p = Ok (tt, p') /\ reads file p' /\ log (prd p') = log (prd p) /\ psh p' = psh p /\
    (forall n, xget n (pxref p') = or_else (newest n (secs_to (L1 ++ [x]))) (xget n (pxref p))) /\
    (forall k, entry (ptrailer p') k = or_else (newest_key k (secs_to (L1 ++ [x]))) (entry (ptrailer p) k)).
  Proof.
    induction L1 as [| y L1 IH] using rev_ind; intros [[o q] r] L2 QL fuel seen p FU SN W; (destruct fuel as [| f]; [cbn in FU; lia |]).
    all: assert (I : In (o, q, r) lay) by (rewrite QL; apply in_or_app; right; left; reflexivity).
    all: destruct (table_data o q r I) as (g0 & g1 & T & g2 & t & z & Z0 & G0 & G1 & N1 & TT & G2 & OT & BK & PV).
    all: pose proof (table_nonneg o r (pw_off _ _ _ (lay_ok _ I))) as TN.
    all: assert (NI : ~ In (w_table_at o r) seen) by (intros K; apply SN in K; unfold table_pos in K; cbn [fst snd] in K; lia).
    all: destruct (table_step E file (w_table_at o r) seen g0 g1 T _ g2 t _ z q NI TN Z0 G0 G1 N1 TT G2 OT BK PV f p W) as (s1 & m & W1 & L1' & ND & GM & R).
    all: unfold table_pos; cbn [fst snd]; rewrite R.
    all: destruct (layout_split _ _ _ _ _ _ _ _ QL) as (rs1 & rs2 & a & _ & _ & _ & _ & CS).
    - destruct CS as [(_ & _ & _ & ->) | (? & L' & ? & ? & ? & _ & _ & QX & _)]; [| destruct L'; discriminate QX]. cbn [follow_prev].
      eexists. split; [reflexivity |]. cbn [prd pxref ptrailer psh with_xref with_trailer with_rd]. split; [exact W1 |]. split; [exact L1' |]. split; [reflexivity |]. split.
      + intros n. unfold xget. rewrite mget_mmerge by (exact Zeqb_ok || assumption). fold (xget n m) (xget n (pxref p)). rewrite GM. cbn [app]. unfold secs_to. cbn [map rev app newest u_section sc_entries fst snd]. destruct (latest n _); reflexivity.
      + intros k. rewrite merged_key by (eapply obj_text_nodup; eassumption). cbn [app]. unfold secs_to. cbn [map rev app newest_key u_section sc_trailer fst snd]. destruct (entry _ k); reflexivity.
    - destruct CS as [(QX & _) | (a' & L' & o' & q' & r' & _ & _ & QX & -> & LT)]; [destruct L1; discriminate QX |]. apply app_inj_tail in QX. destruct QX as [<- ->].
      assert (QL2 : lay = L1 ++ (o', q', r') :: (o, Some (w_table_at o' r'), r) :: L2) by (rewrite QL; apps; reflexivity).
      assert (LT2 : w_table_at o' r' < w_table_at o r) by (unfold w_table_at at 2; pose proof (zlen_nonneg _ (w_objects (rv_objects r))); lia).
      destruct (IH (o', q', r') _ QL2 f (w_table_at o r :: seen) (with_rd s1 p)) as (p2 & R2 & W2 & G2' & S2 & X2 & T2).
      { rewrite app_length in FU. cbn in FU. lia. }
      { unfold table_pos. cbn [fst snd]. intros c [<- | K]; [exact LT2 |]. apply SN in K. unfold table_pos in K. cbn [fst snd] in K. lia. }
      { exact W1. }
      unfold table_pos in R2. cbn [fst snd] in R2. cbn [follow_prev]. unfold bind at 1. rewrite R2.
      eexists. split; [reflexivity |]. cbn [prd pxref ptrailer psh with_xref with_trailer with_rd] in *. split; [exact W2 |]. split; [congruence |]. split; [exact S2 |].
      assert (QS : secs_to ((L1 ++ [(o', q', r')]) ++ [(o, Some (w_table_at o' r'), r)]) = u_section (o, Some (w_table_at o' r'), r) :: secs_to (L1 ++ [(o', q', r')])) by (unfold secs_to; rewrite (map_app _ (L1 ++ _)), rev_app_distr; reflexivity).
      rewrite QS. split.
      + intros n. unfold xget. rewrite mget_mmerge by (exact Zeqb_ok || assumption). fold (xget n m) (xget n (pxref p2)). rewrite GM, X2. cbn [newest u_section sc_entries fst snd]. destruct (latest n (table_lines _)); reflexivity.
      + intros k. rewrite merged_key by (eapply obj_text_nodup; eassumption). rewrite T2. cbn [newest_key u_section sc_trailer fst snd]. destruct (entry (with_prev _ _) k); reflexivity.
  Qed.

  (** ** Every "xref" *)
  Lemma xrefs_in : forall rs' off prev u v, Forall laid_well (w_layout off prev rs') -> w_revisions off prev rs' = u ++ lit "xref" ++ v ->
    exists x, In x (w_layout off prev rs') /\ (off + zlen u = table_pos x \/ off + zlen u = start_pos x).
  Proof.
    induction rs' as [| r rs' IH]; intros off prev u v LW Q; [destruct u; discriminate Q |]. cbn [w_revisions w_layout] in *. inversion LW as [| ? ? PW LW']; subst. unfold laid_well in PW. cbn [fst snd] in PW.
    set (R := w_revisions _ _ rs') in *. rewrite revision_parts, <- app_assoc in Q. pose proof (objects_xref _ (lv_objects _ (pw_revision _ _ _ PW))) as NO.
    pose proof (rmid_quiet _ _ _ PW) as (_ & _ & NM). unfold w_rtail in Q. set (mid := w_mid _ _ _) in *. rewrite <- !app_assoc in Q.
    destruct (xref_next _ _ _ _ NO Q) as [[-> _] | (u' & -> & Q2)].
    { exists (off, prev, r). split; [left; reflexivity |]. left. reflexivity. }
    destruct (xref_next _ _ _ _ NM Q2) as [[-> _] | (u2 & -> & Q3)].
    { exists (off, prev, r). split; [left; reflexivity |]. right. unfold start_pos, table_pos, w_table_at. cbn [fst snd]. fold mid. rewrite !zlen_app. change (zlen (lit "xref")) with 4. lia. }
    assert (NX : ~ In "x"%byte (w_last (w_table_at off r))).
    { intros I. unfold w_last in I. destruct I as [I | I]; [discriminate I |]. apply in_app_or in I. destruct I as [I | I]; [apply (dec_isdigit _ (table_nonneg off r (pw_off _ _ _ PW))) in I; discriminate I | vm_compute in I; intuition discriminate]. }
    destruct (not_in_first _ _ _ u2 (lit "ref" ++ v) NX Q3) as (u3 & -> & Q4).
    destruct (IH _ _ u3 v LW' Q4) as (x & I & C). exists x. split; [right; exact I |].
    replace (off + zlen (w_objects (rv_objects r) ++ lit "xref" ++ mid ++ lit "xref" ++ w_last (w_table_at off r) ++ u3)) with (off + zlen (w_revision off prev r) + zlen u3); [exact C |].
    rewrite revision_parts. unfold w_rtail. fold mid. rewrite !zlen_app. lia.
  Qed.
  Lemma xrefs_only : forall i, In i (find_xref_offsets file) -> exists x, In x lay /\ (i = table_pos x \/ i = start_pos x).
  Proof.
    intros i I. apply (proj2 (xref_positions file)) in I. destruct I as (B & t & r & Z0 & ->). pose proof (ztake_zdrop _ i file (proj1 B)) as F. rewrite Z0 in F.
    assert (LU : zlen (ztake i file) = i) by (rewrite ztake_firstn by lia; unfold zlen in *; rewrite firstn_length; lia). set (u := ztake i file) in *.
    assert (NX : ~ In "x"%byte w_version) by (vm_compute; intuition discriminate).
    destruct (not_in_first _ _ (w_revisions (zlen w_version) None rs) u (lit "ref" ++ r) NX) as (u' & QU & Q); [symmetry; exact F |].
    destruct (xrefs_in rs _ _ u' r (updated_laid rs GU) Q) as (x & I & C). exists x. split; [exact I |]. rewrite <- LU, QU, zlen_app. exact C.
  Qed.

  (** ** The "xref" of each "startxref" *)
  Lemma start_read : forall x f p, In x lay -> reads file p -> exists s1 d, wf file s1 /\ log s1 = log (prd p) /\ (d = [] \/ first_of rs d) /\ NoDup (map fst d) /\
    load_xref (S f) E file (start_pos x) [] p = Ok (tt, with_trailer (mmerge bseq (ptrailer p) d) (with_rd s1 p)).
  Proof.
    intros [[o q] r] f p I W. pose proof (lay_ok _ I) as PW. unfold laid_well in PW. cbn [fst snd] in PW. pose proof (table_nonneg o r (pw_off _ _ _ PW)) as TN.
    assert (O : 0 <= start_pos (o, q, r)) by (unfold start_pos, table_pos; cbn [fst snd]; match goal with |- context [_ + zlen ?x] => pose proof (zlen_nonneg _ x) end; lia).
    pose proof I as I0. apply in_split in I. destruct I as (L1 & L2 & QL). destruct (layout_split _ _ _ _ _ _ _ _ QL) as (rs1 & rs2 & a & Qrs & QR & QL2 & QO & _). set (o2 := o + zlen (w_revision o q r)) in *. set (q2 := Some (w_table_at o r)) in *.
    assert (Z0 : zdrop (start_pos (o, q, r)) file = lit "xref" ++ w_last (w_table_at o r) ++ w_revisions o2 q2 rs2).
    { unfold file, w_updated. rewrite QR, revision_parts. unfold w_rtail. set (mid := w_mid _ _ _).
      match goal with |- zdrop _ ?x = ?y => replace x with ((w_version ++ a ++ w_objects (rv_objects r) ++ lit "xref" ++ mid) ++ y) by (apps; reflexivity) end.
      replace (start_pos (o, q, r)) with (zlen (w_version ++ a ++ w_objects (rv_objects r) ++ lit "xref" ++ mid)); [apply zdrop_app |]. unfold start_pos, table_pos, w_table_at. cbn [fst snd]. fold mid. rewrite !zlen_app. change (zlen (lit "xref")) with 4. lia. }
    set (T := w_table_at o r) in *. set (G := x0a :: lit "%%EOF" ++ [x0a]).
    assert (Z1 : zdrop (start_pos (o, q, r)) file = lit "xref" ++ [x0a] ++ dec T ++ G ++ w_revisions o2 q2 rs2) by (rewrite Z0; unfold w_last, G; apps; reflexivity).
    assert (GG : gap G). { unfold G. apply gap_ws; [exact lf_ws |]. change (gap ("%"%byte :: lit "%EOF" ++ x0a :: [])). apply gap_comment; [| left; reflexivity | constructor]. intros b K [-> | ->]; vm_compute in K; intuition discriminate. }
    assert (NILC : forall s1, wf file s1 /\ log s1 = log (prd p) /\ load_xref (S f) E file (start_pos (o, q, r)) [] p = Ok (tt, with_rd s1 p) -> exists s1 d, wf file s1 /\ log s1 = log (prd p) /\ (d = [] \/ first_of rs d) /\ NoDup (map fst d) /\
      load_xref (S f) E file (start_pos (o, q, r)) [] p = Ok (tt, with_trailer (mmerge bseq (ptrailer p) d) (with_rd s1 p))).
    { intros s1 (A & B & C). exists s1, []. split; [exact A |]. split; [exact B |]. split; [left; reflexivity |]. split; [constructor |]. rewrite C. destruct p as [x1 x2 x3 x4]. reflexivity. }
    destruct rs2 as [| r2 rs2].
    - destruct (word_stray E file (start_pos (o, q, r)) [x0a] (dec T) T G f p O) as (s1 & H); [rewrite Z1; cbn [w_revisions]; rewrite app_nil_r; reflexivity | apply gap1, lf_ws | discriminate | apply dec_text; exact TN | left; exact (blank_gap _ GG) | exact W |]. exact (NILC s1 H).
    - cbn [w_revisions] in Z1. rewrite revision_parts in Z1. set (R := w_revisions _ _ rs2) in Z1.
      assert (I2 : In (o2, q2, r2) lay) by (rewrite QL, QL2; apply in_or_app; right; right; left; reflexivity).
      pose proof (lay_ok _ I2) as PW2. unfold laid_well in PW2. cbn [fst snd] in PW2.
      destruct (rv_objects r2) as [| ob D] eqn:QD.
      + cbn [w_objects flat_map app] in Z1. unfold w_rtail in Z1. set (mid := w_mid _ _ _) in Z1.
        assert (QM : exists m, mid = x0a :: "0"%byte :: m) by (unfold mid, w_mid, w_entries; cbn [app]; eexists; reflexivity). destruct QM as [m QM].
        destruct (word_stray E file (start_pos (o, q, r)) [x0a] (dec T) T (G ++ lit "xref" ++ x0a :: "0"%byte :: m ++ lit "xref" ++ w_last (w_table_at o2 r2) ++ R) f p O) as (s1 & H); [rewrite Z1, QM; apps; reflexivity | apply gap1, lf_ws | discriminate | apply dec_text; exact TN | | exact W | exact (NILC s1 H)].
        right. eexists G, "x"%byte, (lit "ref"), _. split; [reflexivity |]. split; [exact GG |]. split; [discriminate |]. split; [intros c K; apply word_regular; cbn in K; intuition (subst; reflexivity) |]. split; [reflexivity |].
        split; [apply ws_ends, lf_ws |]. intros z. discriminate.
      + assert (Go : lay_object ob) by (apply (lv_objects _ (pw_revision _ _ _ PW2)); rewrite QD; left; reflexivity).
        assert (HA : harmless r2) by (apply (lu_harmless _ GU (rs1 ++ [r]) r2 rs2); [rewrite Qrs; apps; reflexivity | destruct rs1; discriminate]).
        assert (FO : forall d, ival (as_written ob) = ODict d -> first_of rs d) by (intros d Qd; exists (rs1 ++ [r]), r2, rs2, ob, D; split; [rewrite Qrs; apps; reflexivity |]; split; [destruct rs1; discriminate |]; auto).
        destruct (text_stray E file (start_pos (o, q, r)) [x0a] (dec T) T G (w_head ob) (inum ob) (igen ob) (x0a :: w_value ob ++ x0a :: lit "endobj" ++ x0a :: w_objects D ++ w_rtail o2 q2 r2 ++ R) (ival (as_written ob)) f p O) as (s1 & d & A & B & C & ND & L).
        * rewrite Z1. unfold w_objects. cbn [flat_map]. unfold w_object at 1. apps. reflexivity.
        * apply gap1, lf_ws.
        * discriminate.
        * apply dec_text. exact TN.
        * exact GG.
        * discriminate.
        * apply head_header. exact Go.
        * pose proof (lo_number _ Go). lia.
        * apply ws_ends, lf_ws.
        * destruct (value_text ob) as [v QV]. exists [x0a], (w_obj (ival (as_written ob))). eexists. split; [rewrite QV; apps; reflexivity |]. split; [apply gap1, lf_ws | apply w_obj_text, written_printable, Go].
        * intros d Qd. destruct (lay_entry ob d (lit "Prev") Go Qd ltac:(discriminate)) as (d0 & Q0 & ->). apply no_entry. exact (proj1 (HA ob D d0 QD Q0)).
        * exact W.
        * exists s1, d. split; [exact A |]. split; [exact B |]. split; [| split; [exact ND | exact L]]. destruct C as [C | C]; [left; exact C | right; apply FO; exact C].
  Qed.
  Lemma first_plain : forall d, first_of rs d -> entry d (lit "Encrypt") = None.
  Proof.
    intros d (rs1 & r & rs2 & o & D & Q & N & QD & QV). assert (Go : lay_object o) by (apply (lv_objects r (lu_revisions _ GU r ltac:(rewrite Q; apply in_or_app; right; left; reflexivity))); rewrite QD; left; reflexivity).
    pose proof (lu_harmless _ GU rs1 r rs2 Q N) as HA. destruct (lay_entry o d (lit "Encrypt") Go QV ltac:(discriminate)) as (d0 & Q0 & ->).
    apply no_entry. exact (proj2 (HA o D d0 QD Q0)).
  Qed.
End Updated.
