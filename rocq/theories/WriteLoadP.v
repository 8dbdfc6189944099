(** WriteLoadP.v -- what Load finds in a document that SpecWrite gives
    (C90). *)
From Verif Require Import Base BaseP Msg Reader ReaderP Num NumP Lexer Plain LexerP Obj ReadObj Bits Filters Env Getters Crypt GetObj GetObjP Regex Xref Load SpecLex SpecLexP SpecObj SpecObjP SpecNumP SpecFilters FiltersP
  SpecRead SpecFetch SpecLook SpecStream SpecScan RegexP ScanP StreamP StreamObjP CryptObjP ReadP StreamEx RepairP FetchP SpecOut SpecXref XrefP SpecRecover RecoverP ReadObjP ErrorsP LoadMonoP FuelP SpecWrite WriteP WriteDocP.
From Coq Require Import Strings.String Sorting.Permutation Sorting.Sorted.

(** ** The table *)
Definition w_lines (l : list (Z * iobj)) : list (Z * list line) :=
  (0, [(0, 65535, false)]) :: map (fun p => (inum (snd p), [(fst p, igen (snd p), true)])) l.
Lemma gap1 : forall b, ws_byte b -> gap [b].
Proof. intros b W. apply gap_ws; [exact W | constructor]. Qed.
Lemma sp_ws : ws_byte x20.
Proof. vm_compute. tauto. Qed.
Lemma one_line : forall off gen (u : bool), 0 <= off < 10 ^ 10 -> 0 <= gen <= 65535 -> lines_text (w_line off gen (if u then lit "n" else lit "f")) [(off, gen, u)].
Proof.
  intros off gen u B1 B2. assert (Q : w_line off gen (if u then lit "n" else lit "f") =
    (dec_pad 10 off ++ [x20] ++ dec_pad 5 gen ++ [x20] ++ (if u then lit "n" else lit "f")) ++ [x20; x0a] ++ []) by (unfold w_line; apps; reflexivity).
  rewrite Q. apply ls_cons; [| apply gap_ws; [exact sp_ws | apply gap1, lf_ws] | discriminate | constructor].
  apply lt_intro; [apply dec_pad_text; [lia | exact B1] | apply gap1, sp_ws | discriminate | apply dec_pad_text; [lia | cbn; lia] | apply gap1, sp_ws].
Qed.
Lemma one_text : nat_text (lit "1") 1.
Proof. exact (dec_text 1 ltac:(lia)). Qed.
Lemma table_texts : forall l, (forall p, In p l -> good_place p) -> table_text (w_table l) (w_lines l).
Proof.
  intros l G. unfold w_table, w_lines.
  assert (Q : (lit "0 1" ++ x0a :: w_line 0 65535 (lit "f")) ++ flat_map w_sub l = lit "0" ++ [x20] ++ lit "1" ++ [x0a] ++ w_line 0 65535 (lit "f") ++ flat_map w_sub l) by (apps; reflexivity).
  rewrite Q. clear Q. apply tt_cons; [exact (dec_text 0 ltac:(lia)) | apply gap1, sp_ws | discriminate | exact one_text | apply gap1, lf_ws | discriminate | cbn; lia | apply (one_line 0 65535 false); lia |].
  induction l as [| p l IH]; [constructor |]. cbn [flat_map map]. destruct (G p (or_introl eq_refl)) as [B Go]. destruct Go as [N1 N2 _ _].
  assert (Q : w_sub p ++ flat_map w_sub l = dec (inum (snd p)) ++ [x20] ++ lit "1" ++ [x0a] ++ w_line (fst p) (igen (snd p)) (lit "n") ++ flat_map w_sub l) by (unfold w_sub; apps; reflexivity).
  rewrite Q. clear Q. apply tt_cons; [apply dec_text; lia | apply gap1, sp_ws | discriminate | exact one_text | apply gap1, lf_ws | discriminate | cbn; lia | apply (one_line (fst p) (igen (snd p)) true); [exact B | exact N2] |].
  apply IH. intros q I. apply G. right. exact I.
Qed.
Lemma break_ok : forall t, zlen (t ++ w_break t) mod bufsize <> bufsize - 1.
Proof.
  intros t. unfold w_break, bufsize. rewrite zlen_app. destruct (Z.eqb_spec ((zlen t + 1) mod 4096) 4095) as [Q | Q].
  - change (zlen [x20; x0a]) with 2. assert (K : (zlen t + 2) mod 4096 = 0); [| rewrite K; lia].
    replace (zlen t + 2) with (zlen t + 1 + 1) by lia. rewrite <- Z.add_mod_idemp_l by lia. rewrite Q. reflexivity.
  - change (zlen [x0a]) with 1. exact Q.
Qed.
Lemma break_gap : forall t, gap (w_break t).
Proof. intros t. destruct (break_cases t) as [-> | ->]; [apply gap_ws; [exact sp_ws |] |]; apply gap1, lf_ws. Qed.
Definition w_section (D : list iobj) (tr : dict) : section := {| sc_entries := table_lines (w_lines (w_places (zlen w_version) D)); sc_trailer := tr |}.
Lemma no_entry : forall d k, ~ In k (map fst d) -> entry d k = None.
Proof.
  induction d as [| [k' v] d IH]; intros k N; [reflexivity |]. cbn [entry]. destruct (list_eq_dec Byte.byte_eq_dec k k') as [<- | NE]; [exfalso; apply N; left; reflexivity |].
  apply IH. intros I. apply N. right. exact I.
Qed.
Lemma table_at : forall D tr, lay_document D tr -> exists g0 g1 T g2 t r,
  zdrop (zlen (w_body D)) (w_document D tr) = g0 ++ lit "xref" ++ g1 ++ T ++ lit "trailer" ++ g2 ++ t ++ r /\
  gap g0 /\ gap g1 /\ g1 <> [] /\ table_text T (w_lines (w_places (zlen w_version) D)) /\ gap g2 /\ obj_text t (ODict tr) /\
  zlen (g0 ++ lit "xref" ++ g1 ++ T ++ lit "trailer" ++ g2) mod bufsize <> bufsize - 1 /\ prev_of tr None.
Proof.
  intros D tr GD. set (l := w_places (zlen w_version) D). exists [], [x0a], (w_table l), (w_break (lit "xref" ++ x0a :: w_table l ++ lit "trailer")), (w_obj (ODict tr)), (w_end (zlen (w_body D))).
  split; [| split; [constructor | split; [apply gap1, lf_ws | split; [discriminate | split; [| split; [apply break_gap | split; [apply w_obj_text, (ld_trailer _ _ GD) | split]]]]]]].
  - unfold w_document. rewrite zdrop_app. unfold w_xref. fold l. apps. reflexivity.
  - apply table_texts. exact (good_places D tr GD).
  - match goal with |- zlen ?x mod _ <> _ => replace x with ((lit "xref" ++ x0a :: w_table l ++ lit "trailer") ++ w_break (lit "xref" ++ x0a :: w_table l ++ lit "trailer")) by (apps; reflexivity) end. apply break_ok.
  - apply pv_none, no_entry, (ld_prev _ _ GD).
Qed.
Lemma chain_at : forall E D tr, lay_document D tr -> chain E (w_document D tr) (zlen (w_body D)) [] [w_section D tr].
Proof.
  intros E D tr GD. destruct (table_at D tr GD) as (g0 & g1 & T & g2 & t & r & Z0 & G0 & G1 & N1 & TT & G2 & OT & B & PV).
  apply ch_last; [intros [] |]. eapply at_table; try eassumption. apply zlen_nonneg.
Qed.

(** ** startxref *)
Lemma start_end : forall file F off, 0 <= off < 2 ^ 54 -> file = F ++ w_end off -> last_start (last256 file) off.
Proof.
  intros file F0 off [O OB] Q0. set (m := lit "startxref" ++ [x0a] ++ dec off ++ [x0a] ++ lit "%%EOF").
  assert (Q : exists F, file = F ++ m ++ [x0a]).
  { exists (F0 ++ [x0a]). rewrite Q0. unfold w_end, m. apps. reflexivity. }
  clear F0 Q0. destruct Q as [F Q].
  assert (L : (List.length (m ++ [x0a]) <= 256)%nat).
  { pose proof (dec_len off ltac:(lia)) as DL. unfold m, zlen in *. rewrite !app_length. cbn [List.length]. change (List.length (lit "startxref")) with 9%nat. change (List.length (lit "%%EOF")) with 5%nat. lia. }
  exists (skipn (List.length F - (256 - List.length (m ++ [x0a]))) F), m, [x0a]. split; [| split].
  - unfold last256. rewrite Q. rewrite app_length. set (k := List.length (m ++ [x0a])) in *.
    replace (List.length F + k - 256)%nat with (List.length F - (256 - k))%nat by lia. rewrite skipn_app. replace (List.length F - (256 - k) - List.length F)%nat with 0%nat by lia. reflexivity.
  - unfold m. apply st_intro; [intros b [<- | []]; vm_compute; tauto | apply dec_text; exact O | intros b [<- | []]; vm_compute; tauto].
  - intros a' m' b' n' Q' T. destruct (Nat.le_gt_cases (List.length a') (List.length (skipn (List.length F - (256 - List.length (m ++ [x0a]))) F))) as [LE | GT]; [exact LE |]. exfalso.
    revert Q'. unfold last256. rewrite Q. rewrite app_length. set (k := List.length (m ++ [x0a])) in *.
    replace (List.length F + k - 256)%nat with (List.length F - (256 - k))%nat by lia. rewrite skipn_app. replace (List.length F - (256 - k) - List.length F)%nat with 0%nat by lia. cbn [skipn].
    set (a := skipn (List.length F - (256 - k)) F) in *. intros Q'.
    assert (K : exists x, m ++ [x0a] = x ++ m' ++ b' /\ x <> []).
    { assert (E : exists x, a' = a ++ x). { exists (skipn (List.length a) a'). assert (F1 : firstn (List.length a) (a ++ m ++ [x0a]) = firstn (List.length a) (a' ++ m' ++ b')) by (rewrite Q'; reflexivity).
        rewrite !firstn_app, Nat.sub_diag, firstn_all in F1. replace (List.length a - List.length a')%nat with 0%nat in F1 by lia. cbn [firstn] in F1. rewrite !app_nil_r in F1. rewrite F1 at 1. symmetry. apply firstn_skipn. }
      destruct E as [x ->]. rewrite <- app_assoc in Q'. apply app_inv_head in Q'. exists x. split; [exact Q' |]. intros ->. rewrite app_nil_r in GT. lia. }
    destruct K as (x & K & NX). destruct x as [| c x]; [contradiction |]. inversion T as [w1 d n2 w2 A1 A2 A3 Q2]. subst m'.
    assert (IS : In "s"%byte (lit "tartxref" ++ x0a :: dec off ++ x0a :: lit "%%EOF" ++ [x0a])).
    { assert (K2 : lit "tartxref" ++ x0a :: dec off ++ x0a :: lit "%%EOF" ++ [x0a] = x ++ (lit "startxref" ++ w1 ++ d ++ w2 ++ lit "%%EOF") ++ b').
      { unfold m in K. cbn [app] in K. injection K as _ K. etransitivity; [| exact K]. apps. reflexivity. }
      rewrite K2. apply in_or_app. right. left. reflexivity. }
    apply in_app_or in IS. destruct IS as [IS | [IS | IS]]; [vm_compute in IS; intuition discriminate | discriminate IS |].
    apply in_app_or in IS. destruct IS as [IS | [IS | IS]]; [| discriminate IS | vm_compute in IS; intuition discriminate].
    apply (dec_isdigit off O) in IS. discriminate IS.
Qed.
Lemma start_in : forall D tr, lay_document D tr -> last_start (last256 (w_document D tr)) (zlen (w_body D)).
Proof.
  intros D tr GD. apply (start_end _ (w_body D ++ w_xref (w_places (zlen w_version) D) ++ w_obj (ODict tr))).
  - split; [apply zlen_nonneg |]. pose proof (ld_size _ _ GD) as SZ. unfold w_document in SZ. rewrite zlen_app in SZ. match type of SZ with _ + zlen ?x < _ => pose proof (zlen_nonneg _ x) end. lia.
  - unfold w_document. apps. reflexivity.
Qed.

(** ** Every "xref" *)
Lemma xref_next : forall P Q u v, ~ occurs (lit "xref") P -> P ++ lit "xref" ++ Q = u ++ lit "xref" ++ v ->
  u = P /\ v = Q \/ exists u', u = P ++ lit "xref" ++ u' /\ Q = u' ++ lit "xref" ++ v.
Proof.
  induction P as [| b P IH]; intros Q u v N H.
  - cbn [app] in H. destruct u as [| c1 u]; [left; split; [reflexivity | cbn in H; congruence] |]. right.
    destruct u as [| c2 u]; [cbn in H; discriminate H |]. destruct u as [| c3 u]; [cbn in H; discriminate H |]. destruct u as [| c4 u]; [cbn in H; discriminate H |].
    cbn in H. injection H as <- <- <- <- H. exists u. split; [reflexivity | exact H].
  - destruct u as [| c u].
    + exfalso. destruct P as [| b2 P]; [cbn in H; discriminate H |]. destruct P as [| b3 P]; [cbn in H; discriminate H |]. destruct P as [| b4 P]; [cbn in H; discriminate H |].
      cbn in H. injection H as -> -> -> -> H. apply N. exists [], P. reflexivity.
    + cbn [app] in H. injection H as <- H. destruct (IH Q u v) as [[-> ->] | (u' & -> & ->)]; [intros (x & y & O); apply N; exists (b :: x), y; rewrite O; reflexivity | exact H | left; auto |].
      right. exists u'. auto.
Qed.
Definition w_second (D : list iobj) (tr : dict) : Z := zlen (w_body D) + 4 + zlen (w_middle (w_places (zlen w_version) D) tr).
Lemma second_at : forall D tr, zdrop (w_second D tr) (w_document D tr) = lit "xref" ++ w_last (zlen (w_body D)).
Proof.
  intros D tr. rewrite document_parts. unfold w_tail. replace (w_version ++ w_objects D ++ lit "xref" ++ w_middle (w_places (zlen w_version) D) tr ++ lit "xref" ++ w_last (zlen (w_body D)))
    with ((w_body D ++ lit "xref" ++ w_middle (w_places (zlen w_version) D) tr) ++ lit "xref" ++ w_last (zlen (w_body D))) by (unfold w_body; apps; reflexivity).
  replace (w_second D tr) with (zlen (w_body D ++ lit "xref" ++ w_middle (w_places (zlen w_version) D) tr)); [apply zdrop_app |]. rewrite !zlen_app. unfold w_second. change (zlen (lit "xref")) with 4. lia.
Qed.
Lemma xrefs_are : forall D tr, lay_document D tr -> find_xref_offsets (w_document D tr) = [zlen (w_body D); w_second D tr].
Proof.
  intros D tr GD. set (file := w_document D tr). destruct (xref_positions file) as [SS IN]. set (mid := w_middle (w_places (zlen w_version) D) tr).
  assert (QF : file = w_body D ++ lit "xref" ++ (mid ++ lit "xref" ++ w_last (zlen (w_body D)))) by (unfold file; rewrite document_parts; unfold w_body, w_tail; apps; reflexivity).
  assert (NB : ~ occurs (lit "xref") (w_body D)).
  { unfold w_body, w_version. rewrite <- app_assoc. cbn [app]. intros O. apply (occurs_split _ (lit "%PDF-1.7") x0a) in O; [| vm_compute; intuition discriminate | discriminate].
    destruct O as [O | O]; [revert O; apply occurs_check; vm_compute; reflexivity |]. exact (objects_xref D (ld_objects _ _ GD) O). }
  pose proof (middle_quiet _ tr (good_places D tr GD) (ld_trailer _ _ GD)) as (_ & _ & NM). fold mid in NM.
  assert (NL : ~ occurs (lit "xref") (w_last (zlen (w_body D)))).
  { intros (a & b & O). assert (I : In "x"%byte (w_last (zlen (w_body D)))) by (rewrite O; apply in_or_app; right; left; reflexivity).
    unfold w_last in I. destruct I as [I | I]; [discriminate I |]. apply in_app_or in I. destruct I as [I | I]; [apply (dec_isdigit _ (zlen_nonneg _ _)) in I; discriminate I | vm_compute in I; intuition discriminate]. }
  assert (MEM : forall i, In i (find_xref_offsets file) <-> i = zlen (w_body D) \/ i = w_second D tr).
  { intros i. rewrite IN. split.
    - intros (B & t & r & Z0 & ->). pose proof (ztake_zdrop _ i file (proj1 B)) as F. rewrite Z0 in F.
      assert (LU : zlen (ztake i file) = i) by (rewrite ztake_firstn by lia; unfold zlen in *; rewrite firstn_length; lia).
      rewrite QF in F at 2. symmetry in F. destruct (xref_next _ _ _ _ NB F) as [[Q _] | (u' & Q & F2)]; [left; rewrite <- LU, Q; reflexivity |].
      destruct (xref_next _ _ _ _ NM F2) as [[Q2 _] | (u2 & Q2 & F3)].
      + right. rewrite <- LU, Q, Q2, !zlen_app. unfold w_second. fold mid. change (zlen (lit "xref")) with 4. lia.
      + exfalso. apply NL. exists u2, r. exact F3.
    - intros [-> | ->].
      + split; [rewrite QF, zlen_app; pose proof (zlen_nonneg _ (w_body D)); match goal with |- context [_ + zlen ?x] => pose proof (zlen_nonneg _ x) end; lia |].
        exists (lit "xref"), (mid ++ lit "xref" ++ w_last (zlen (w_body D))). split; [| reflexivity]. rewrite QF at 1. apply zdrop_app.
      + split; [| eexists; eexists; split; [apply second_at | reflexivity]].
        unfold w_second. fold mid. rewrite QF, !zlen_app. change (zlen (lit "xref")) with 4. pose proof (zlen_nonneg _ (w_body D)). pose proof (zlen_nonneg _ mid). pose proof (zlen_nonneg _ (w_last (zlen (w_body D)))). lia. }
  assert (LT : zlen (w_body D) < w_second D tr) by (unfold w_second; pose proof (zlen_nonneg _ (w_middle (w_places (zlen w_version) D) tr)); lia).
  clear - SS MEM LT. destruct (find_xref_offsets file) as [| a l]; [exfalso; apply (MEM (zlen (w_body D))); left; reflexivity |].
  inversion SS as [| ? ? SL FA]; subst. rewrite Forall_forall in FA.
  assert (QA : a = zlen (w_body D)).
  { destruct (proj1 (MEM a) (or_introl eq_refl)) as [Q | Q]; [exact Q |]. exfalso. destruct (proj2 (MEM (zlen (w_body D))) (or_introl eq_refl)) as [Q2 | I]; [lia |]. apply FA in I. lia. }
  subst a. f_equal. destruct l as [| b l]; [exfalso; destruct (proj2 (MEM (w_second D tr)) (or_intror eq_refl)) as [Q | []]; lia |].
  inversion SL as [| ? ? SL2 FB]; subst. rewrite Forall_forall in FB.
  assert (QB : b = w_second D tr). { destruct (proj1 (MEM b) (or_intror (or_introl eq_refl))) as [Q | Q]; [exfalso; specialize (FA b (or_introl eq_refl)); lia | exact Q]. }
  subst b. f_equal. destruct l as [| c l]; [reflexivity |]. exfalso. specialize (FB c (or_introl eq_refl)). specialize (FA c (or_intror (or_introl eq_refl))).
  destruct (proj1 (MEM c) (or_intror (or_intror (or_introl eq_refl)))); lia.
Qed.

(** ** What the table says *)
Lemma lines_are : forall l, (forall p, In p l -> good_place p) -> table_lines (w_lines l) = (0, new_xentry 0 65535 0) :: map (fun p => (inum (snd p), new_xentry (fst p) (igen (snd p)) 1)) l.
Proof.
  intros l G. unfold table_lines, w_lines. cbn [flat_map]. cbn [fst snd map number_from app]. change (wrap64 0) with 0. f_equal.
  induction l as [| p l IH]; [reflexivity |]. cbn [map flat_map fst snd number_from app]. rewrite IH by (intros q I; apply G; right; exact I). f_equal.
  destruct (G p (or_introl eq_refl)) as [B Go]. destruct Go as [N1 N2 _ _]. unfold line_entry, new_xentry. rewrite !wrap_small by lia. reflexivity.
Qed.
Lemma latest_none : forall (A : Type) n (l : list (Z * A)), ~ In n (map fst l) -> latest n l = None.
Proof.
  intros A n l. induction l as [| [k e] l IH]; intros N; [reflexivity |]. cbn [latest]. rewrite IH by (intros I; apply N; right; exact I).
  destruct (Z.eqb_spec k n) as [-> | D]; [exfalso; apply N; left; reflexivity | reflexivity].
Qed.
Lemma latest_one : forall (A : Type) n (e : A) l, NoDup (map fst l) -> In (n, e) l -> latest n l = Some e.
Proof.
  intros A n e l. induction l as [| [k x] l IH]; intros ND I; [destruct I |]. cbn [latest]. cbn [map fst] in ND. inversion ND as [| ? ? N ND']; subst. destruct I as [I | I].
  - injection I as -> ->. rewrite latest_none by exact N. rewrite Z.eqb_refl. reflexivity.
  - rewrite (IH ND' I). reflexivity.
Qed.
Lemma place_numbers : forall D off, map (fun p => inum (snd p)) (w_places off D) = map inum D.
Proof. induction D as [| o D IH]; intros off; [reflexivity |]. cbn [w_places map snd]. rewrite IH. reflexivity. Qed.
Lemma table_says : forall D tr, lay_document D tr -> let T := table_lines (w_lines (w_places (zlen w_version) D)) in
  (forall k o, In (k, o) (w_places (zlen w_version) D) -> latest (inum o) T = Some (new_xentry k (igen o) 1)) /\
  (forall n e, latest n T = Some e -> x_type e = 1 -> exists k o, In (k, o) (w_places (zlen w_version) D) /\ inum o = n) /\
  (forall n e, latest n T = Some e -> 0 <= x_off e).
Proof.
  intros D tr GD T. unfold T. rewrite (lines_are _ (good_places D tr GD)). set (l := w_places (zlen w_version) D).
  assert (MF : map fst (map (fun p => (inum (snd p), new_xentry (fst p) (igen (snd p)) 1)) l) = map inum D) by (rewrite map_map; cbn [fst]; apply place_numbers).
  assert (ND : NoDup (map fst ((0, new_xentry 0 65535 0) :: map (fun p => (inum (snd p), new_xentry (fst p) (igen (snd p)) 1)) l))).
  { cbn [map fst]. constructor; [| rewrite MF; exact (ld_numbers _ _ GD)]. rewrite MF. intros I. apply in_map_iff in I. destruct I as (o & Q & I).
    pose proof (lo_number _ (ld_objects _ _ GD o I)). lia. }
  assert (LI : forall n (e : xentry) q, latest n q = Some e -> In (n, e) q).
  { intros n e. induction q as [| [k x] q IH]; [discriminate |]. cbn [latest]. destruct (latest n q) as [y |].
    - intros Q. right. apply IH. exact Q.
    - destruct (Z.eqb_spec k n) as [-> | _]; [| discriminate]. intros Q. left. congruence. }
  split; [| split].
  - intros k o I. apply latest_one; [exact ND |]. right. apply in_map_iff. exists (k, o). split; [reflexivity | exact I].
  - intros n e L TY. apply LI in L. destruct L as [L | L]; [injection L as _ <-; discriminate TY |]. apply in_map_iff in L. destruct L as ([k o] & Q & I). cbn [fst snd] in Q. injection Q as <- <-. eauto.
  - intros n e L. apply LI in L. destruct L as [L | L]; [injection L as _ <-; cbn; lia |]. apply in_map_iff in L. destruct L as ([k o] & Q & I). cbn [fst snd] in Q. injection Q as <- <-.
    destruct (good_places D tr GD _ I) as [B _]. cbn. cbn in B. lia.
Qed.

(** ** The two steps *)
Lemma first_step : forall E D tr f p, lay_document D tr -> reads (w_document D tr) p -> exists p',
  load_xref (S f) E (w_document D tr) (zlen (w_body D)) [] p = Ok (tt, p') /\ reads (w_document D tr) p' /\ log (prd p') = log (prd p) /\ psh p' = psh p /\
  (forall n, xget n (pxref p') = or_else (latest n (table_lines (w_lines (w_places (zlen w_version) D)))) (xget n (pxref p))) /\
  (forall k, entry (ptrailer p') k = or_else (entry tr k) (entry (ptrailer p) k)).
Proof.
  intros E D tr f p GD W. destruct (table_at D tr GD) as (g0 & g1 & T & g2 & t & r & Z0 & G0 & G1 & N1 & TT & G2 & OT & B & PV).
  destruct (table_step E (w_document D tr) (zlen (w_body D)) [] g0 g1 T (w_lines (w_places (zlen w_version) D)) g2 t tr r None) with (f := f) (p := p) as (s1 & m & W1 & L1 & ND & GM & R); try eassumption; [intros [] | apply zlen_nonneg |].
  rewrite R. eexists. split; [reflexivity |]. cbn [prd pxref ptrailer psh with_xref with_trailer with_rd]. split; [exact W1 |]. split; [exact L1 |]. split; [reflexivity |]. split.
  - intros n. unfold xget. rewrite mget_mmerge by (exact Zeqb_ok || assumption). fold (xget n m) (xget n (pxref p)). rewrite GM.
    destruct (latest n _); reflexivity.
  - intros k. rewrite merged_key by (eapply obj_text_nodup; eassumption). destruct (entry tr k); reflexivity.
Qed.
Lemma last_step : forall E file off A f p, 0 <= off -> 0 <= A -> zdrop off file = lit "xref" ++ w_last A -> reads file p -> exists s1, wf file s1 /\ log s1 = log (prd p) /\
  load_xref (S f) E file off [] p = Ok (tt, with_rd s1 p).
Proof.
  intros E file off A f p O OA Z0 W. cbn [load_xref zmem existsb]. cbv zeta.
  unfold bind at 1. unfold pseek at 1. unfold bind at 1. unfold onrd at 1. cbn [prd with_rd].
  set (s0 := seek file off (prd p)). pose proof (sk_nonneg file off (prd p) O) as S0. fold s0 in S0. set (e := off + zlen (zdrop off file)) in S0. clearbody e.
  rewrite Z0 in S0.
  destruct (read_word_text file s0 [] "x"%byte (lit "ref") (w_last A) e (log (prd p)) gap_nil) as (s1 & R1 & S1).
  { intros c I. apply word_regular; cbn in I; intuition (subst; reflexivity). }
  { right. exists x0a, (dec A ++ x0a :: lit "%%EOF" ++ [x0a]). split; [reflexivity | left; exact lf_ws]. }
  { exact S0. }
  rewrite R1. change (bseq ("x"%byte :: lit "ref") (lit "xref")) with true. cbv iota beta.
  unfold bind at 1. unfold onrd at 1. cbn [prd with_rd].
  destruct (read_int_text file s1 [x0a] (dec A) A (x0a :: lit "%%EOF" ++ [x0a]) e (log (prd p)) (gap1 _ lf_ws) (dec_text A OA)) as (s2 & R2 & S2); [reflexivity | exact S1 |].
  destruct (read_int_eof file s2 _ _ _ S2) as (s3 & R3 & S3 & L3); [reflexivity |].
  unfold read_xref_table. cbn [table_sections]. rewrite R2, R3. cbv iota beta.
  unfold bind at 1. unfold onrd at 1. cbn [prd with_rd].
  destruct (read_keyword_sim file s3 _ _ _ S3) as (s4 & R4 & S4). rewrite R4. pose proof (p_keyword_len (rest s3)) as L4.
  unfold bind at 1. unfold onrdr at 1. cbn [prd with_rd]. destruct S4 as (W4 & E4 & _ & G4). rewrite <- E4 in L4.
  destruct (ReadDictionary_cases file no_decryptor s4 W4 no_decent) as [(r' & PR & _) | (_ & s5 & R5 & W5 & G5)].
  { exfalso. pose proof (proj1 (p_ws_len (rest s4))) as L5. rewrite PR in L5. cbn in L5. lia. }
  rewrite R5. exists s5. split; [exact W5 |]. split; [congruence |]. destruct p as [x1 x2 x3 x4]. reflexivity.
Qed.
Lemma second_step : forall E D tr f p, lay_document D tr -> reads (w_document D tr) p -> exists s1, wf (w_document D tr) s1 /\ log s1 = log (prd p) /\
  load_xref (S f) E (w_document D tr) (w_second D tr) [] p = Ok (tt, with_rd s1 p).
Proof.
  intros E D tr f p GD W. apply (last_step E _ _ (zlen (w_body D))); [| apply zlen_nonneg | apply second_at | exact W].
  unfold w_second; pose proof (zlen_nonneg _ (w_body D)); pose proof (zlen_nonneg _ (w_middle (w_places (zlen w_version) D) tr)); lia.
Qed.

(** ** Repairing *)
Lemma repair_log : forall file l p u p', reads file p -> NoDup (map fst l) -> repair file l p = Ok (u, p') -> log (prd p') = log (prd p).
Proof.
  intros file l. induction l as [| [n s] l IH]; intros p u p' W ND H; [cbn in H; injection H as _ <-; reflexivity |]. cbn [repair] in H. unfold bind at 1 in H. cbn [map] in ND. inversion ND as [| ? ? _ ND']; subst.
  destruct (repair_one_spec file n s p W) as (p1 & R1 & W1 & _). rewrite R1 in H. rewrite (IH p1 u p' W1 ND' H). clear - R1 W. unfold repair_one in R1. destruct (xget n (pxref p)) as [e |].
  - unfold bind at 1 in R1. unfold pseek at 1 in R1. unfold bind at 1 in R1. unfold onrd at 1 in R1. cbn [prd with_rd] in R1. set (s0 := seek file (x_off e) (prd p)) in *.
    assert (W0 : wf file s0) by (apply seek_wf; exact W). assert (L0 : log s0 = log (prd p)) by (unfold s0, seek; destruct (x_off e <? 0); reflexivity).
    pose proof (header_plain file s0 W0) as (_ & L1 & _). destruct (read_object_header s0) as [[[a b] ok] s1]. cbn [snd] in L1.
    destruct (ok || negb (a =? n)); cbn in R1; injection R1 as <-; cbn [prd with_xref with_rd]; congruence.
  - cbn in R1. injection R1 as <-. reflexivity.
Qed.

(** ** Loading *)
(** up to the encryption *)
Definition first_part (fuel : nat) (E : env) (ord : xmap -> xmap) (file : bytes) : M unit :=
  bind (find_objects fuel E file) (fun objects => bind (pseek file (zlen file)) (fun _ => bind (load_all fuel E file (xref_offsets file objects)) (fun _ => repair file (ord objects)))).
Lemma load_parts : forall fuel E ord file pw p, load fuel E ord file pw p =
  bind (first_part fuel E ord file) (fun _ p => match dget (lit "Encrypt") (ptrailer p) with
    | Some encrypt => bind (exempt_encrypt encrypt) (fun _ => set_password fuel E file pw) p
    | None => Ok (None, p)
    end) p.
Proof.
  intros. unfold load, first_part, bind. destruct (find_objects fuel E file p) as [[os p1]| |]; [| reflexivity | reflexivity].
  destruct (pseek file (zlen file) p1) as [[u p2]| |]; [| reflexivity | reflexivity].
  destruct (load_all fuel E file (xref_offsets file os) p2) as [[u' p3]| |]; reflexivity.
Qed.
Lemma first_more : forall f f' E ord file p x, (f <= f')%nat -> first_part f E ord file p = Ok x -> first_part f' E ord file p = Ok x.
Proof.
  intros f f' E ord file p x L H. assert (Q : mle (first_part f E ord file) (first_part f' E ord file)).
  { apply bind_mle; [apply find_objects_mono; exact L | intros os]. apply bind_mle; [apply mle_refl | intros _]. apply bind_mle; [apply load_all_mono; exact L | intros _]. apply mle_refl. }
  destruct (Q p) as [K | K]; congruence.
Qed.
Lemma document_before : forall E D tr, lay_document D tr -> forall fuel ord, (2 <= fuel)%nat -> (forall m, Permutation (ord m) m) ->
  exists p, reads (w_document D tr) p /\ log (prd p) = [] /\ psh p = new_sechandler /\
    (forall k, entry (ptrailer p) k = entry tr k) /\ offsets_ok (pxref p) /\
    (forall k o, In (k, o) (w_places (zlen w_version) D) -> xget (inum o) (pxref p) = Some (new_xentry k (igen o) 1)) /\
    (forall n, SpecOut.in_use p n -> exists o, In o D /\ inum o = n) /\
    first_part fuel E ord (w_document D tr) (new_parser (w_document D tr)) = Ok (tt, p).
Proof.
  intros E D tr GD fuel ord F P. set (file := w_document D tr). unfold first_part. unfold bind at 1.
  destruct (find_objects_records E file (new_parser file) fuel (open_wf file) eq_refl F) as (l & os & p1 & F1 & SC & RC & W1 & X1 & T1 & S1 & ND). set (objs := w_places (zlen w_version) D).
  assert (OA : forall i o, In (i, o) objs -> listed_at file i (inum o) (igen o)) by (intros i o I; apply written_listed; assumption).
  assert (ON : only_at file (map fst objs)) by (apply markers_only; [exact (ld_objects _ _ GD) | exact (good_places D tr GD) | exact (ld_trailer _ _ GD)]).
  destruct (find_objects_silent E file (new_parser file) fuel os p1 (open_wf file) eq_refl F F1) as (l' & SC' & L1).
  assert (L1' : log (prd p1) = []).
  { rewrite L1; [reflexivity |]. intros i I. apply (scan_objects file objs l' OA ON SC') in I. apply in_map_iff in I. destruct I as ([i' o] & Q & I). cbn in Q. subst i'. eapply listed_silent, OA, I. }
  clear L1 SC' l'. rewrite F1.
  pose proof (objects_recorded file objs l os OA ON SC RC) as RO. pose proof (recorded_plain objs os RO ND) as NS.
  set (A := zlen (w_body D)). set (B := w_second D tr).
  assert (LT : A <= B) by (unfold A, B, w_second; pose proof (zlen_nonneg _ (w_middle (w_places (zlen w_version) D) tr)); lia).
  assert (SX : start_xref_offset file = Some A).
  { apply start_offset. split; [apply start_in; exact GD |]. pose proof (ld_size _ _ GD) as SZ. unfold w_document in SZ. rewrite zlen_app in SZ. fold A in SZ. match type of SZ with _ + zlen ?x < _ => pose proof (zlen_nonneg _ x) end. lia. }
  pose proof (xrefs_are D tr GD) as XA. fold file A B in XA. unfold xref_offsets. rewrite XA, NS, SX. cbn [map app sortZ fold_right insertZ]. rewrite (proj2 (Z.leb_le A B) LT). cbn [app load_all]. unfold bind at 1. unfold pseek at 1.
  set (p2 := with_rd (seek file (zlen file) (prd p1)) p1).
  assert (W2 : reads file p2) by (apply sk_nonneg; apply zlen_nonneg).
  assert (L2 : log (prd p2) = []) by (unfold p2; cbn [prd with_rd]; rewrite sk_log by apply zlen_nonneg; exact L1').
  destruct fuel as [| f]; [lia |]. unfold bind at 1.
  destruct (first_step E D tr f p2 GD W2) as (p3 & R3 & W3 & L3 & S3 & X3 & T3). unfold bind at 1. fold file A in R3. rewrite R3.
  destruct (second_step E D tr f p3 GD W3) as (s4 & W4 & L4 & R4). unfold bind at 1. fold file B in R4. rewrite R4.
  destruct (first_step E D tr f (with_rd s4 p3) GD W4) as (p5 & R5 & W5 & L5 & S5 & X5 & T5). unfold bind at 1. fold file A in R5. rewrite R5. unfold ret at 1.
  destruct (repair_any_order file (ord os) os p5 W5 ND (P os)) as (p6 & R6 & W6 & T6 & S6 & C6 & _). rewrite R6.
  assert (TR : forall k, entry (ptrailer p6) k = entry tr k).
  { intros k. rewrite T6, T5. cbn [ptrailer with_rd]. rewrite T3. unfold p2. cbn [ptrailer with_rd]. rewrite T1. cbn [ptrailer new_parser]. destruct (entry tr k); reflexivity. }
  destruct (table_says D tr GD) as (TS1 & TS2 & TS3). set (T := table_lines (w_lines (w_places (zlen w_version) D))) in *.
  assert (XT : forall n, xget n (pxref p5) = latest n T).
  { intros n. rewrite X5. cbn [pxref with_rd]. rewrite X3. unfold p2. cbn [pxref with_rd]. rewrite X1. destruct (latest n T); reflexivity. }
  assert (OS : forall n e, xget n os = Some e -> latest n T = Some e).
  { intros n e Q. specialize (RO n). rewrite Q in RO. destruct RO as (i & o & [I _] & QN & ->). subst n. apply TS1. exact I. }
  assert (X6 : forall n, xget n (pxref p6) = latest n T).
  { intros n. specialize (C6 n). rewrite XT in C6. destruct (xget n os) as [s |] eqn:Q; [| exact C6]. rewrite (OS n s Q) in *. destruct C6 as (e' & Q6 & SM & OF). rewrite Q6. f_equal.
    destruct SM as (M1 & M2 & M3 & M4). destruct s, e'. cbn in *. destruct OF; subst; congruence. }
  exists p6. split; [exact W6 |]. split.
  { rewrite (repair_log file (ord os) p5 tt p6 W5); [| | exact R6]; [| eapply Permutation_NoDup; [symmetry; apply Permutation_map; apply P | exact ND]]. rewrite L5. cbn [prd with_rd]. rewrite L4, L3. exact L2. }
  split; [rewrite S6, S5; cbn [psh with_rd]; rewrite S3; unfold p2; cbn [psh with_rd]; rewrite S1; reflexivity |].
  split; [exact TR |]. split; [| split; [| split]].
  - intros n e Q _. rewrite X6 in Q. eapply TS3. exact Q.
  - intros k o I. rewrite X6. apply TS1. exact I.
  - intros n (e & Q & TY). rewrite X6 in Q. destruct (TS2 n e Q TY) as (k & o & I & QN). exists o. split; [| exact QN]. apply places_split in I. destruct I as (D1 & D2 & -> & _). apply in_or_app. right. left. reflexivity.
  - reflexivity.
Qed.
Lemma document_loaded : forall E D tr, good_document D tr -> forall fuel ord pw, (2 <= fuel)%nat -> (forall m, Permutation (ord m) m) ->
  exists p, load fuel E ord (w_document D tr) pw (new_parser (w_document D tr)) = Ok (None, p) /\ reads (w_document D tr) p /\ log (prd p) = [] /\ psh p = new_sechandler /\
    (forall k, entry (ptrailer p) k = entry tr k) /\ offsets_ok (pxref p) /\
    (forall k o, In (k, o) (w_places (zlen w_version) D) -> xget (inum o) (pxref p) = Some (new_xentry k (igen o) 1)) /\
    (forall n, SpecOut.in_use p n -> exists o, In o D /\ inum o = n).
Proof.
  intros E D tr GD fuel ord pw F P. destruct (document_before E D tr (gd_lay _ _ GD) fuel ord F P) as (p & W & LG & SH & TR & OF & XG & IU & L). exists p. split; [| auto 10].
  rewrite load_parts. unfold bind at 1. rewrite L. assert (NE : dget (lit "Encrypt") (ptrailer p) = None) by (rewrite dget_entry, TR; apply no_entry, (gd_plain _ _ GD)). rewrite NE. reflexivity.
Qed.
