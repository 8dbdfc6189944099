(** LinearP.v -- where the objects and the tables are in a document that
    SpecLinear gives, and what Load finds (C118). *)
From Verif Require Import Base BaseP Msg Reader ReaderP Num NumP Lexer Plain LexerP Obj ReadObj Bits Filters Env Getters Crypt GetObj GetObjP Regex Xref Load SpecLex SpecLexP SpecObj SpecObjP SpecNumP SpecFilters FiltersP
  SpecRead SpecFetch SpecLook SpecStream SpecScan RegexP ScanP StreamP StreamObjP CryptObjP ReadP StreamEx RepairP FetchP SpecOut SpecXref XrefP SpecRecover RecoverP ReadObjP ErrorsP SpecWrite WriteP WriteDocP WriteLoadP
  SpecUpdate StrayP UpdateP UpdateLoadP UpdateFindP TrailerP DocP SpecLinear.
From Coq Require Import Strings.String Sorting.Permutation Sorting.Sorted.

(** ** Parts *)
Record part := { pt_objects : list iobj; pt_lines : list (Z * iobj); pt_dict : dict; pt_start : Z }.
Definition pt_text (x : part) : bytes := w_part (pt_objects x) (pt_lines x) (pt_dict x) (pt_start x).
Definition pt_mid (x : part) : bytes := w_mid [] (pt_lines x) (pt_dict x).
Definition pt_tail (x : part) : bytes := lit "xref" ++ pt_mid x ++ lit "xref" ++ w_last (pt_start x).
Definition pt_all (ps : list part) : bytes := flat_map pt_text ps.
Lemma part_parts : forall x, pt_text x = w_objects (pt_objects x) ++ pt_tail x.
Proof. intros x. unfold pt_text, w_part, pt_tail, pt_mid, w_sect, w_mid, w_end, w_last. apps. reflexivity. Qed.
Record good_part (x : part) : Prop := {
  gp_objects : forall o, In o (pt_objects x) -> lay_object o;
  gp_lines : forall p, In p (pt_lines x) -> good_place p;
  gp_dict : printable (ODict (pt_dict x));
  gp_start : 0 <= pt_start x
}.
Lemma pmid_quiet : forall x, good_part x -> quiet (pt_mid x).
Proof. intros x G. apply mid_quiet; [intros n [] | exact (gp_lines _ G) | exact (gp_dict _ G)]. Qed.
Lemma ptail_calm : forall x, good_part x -> calm (pt_tail x).
Proof.
  intros x G. unfold pt_tail. pose proof (pmid_quiet _ G) as M. set (T := pt_start x). pose proof (last_calm T (gp_start _ G)) as L.
  assert (M' : exists m, pt_mid x = x0a :: m) by (eexists; unfold pt_mid, w_mid; reflexivity). set (mm := pt_mid x) in *. destruct M' as [m Q]. rewrite Q in *. cbn [app].
  apply (calm_join (lit "xref") x0a); [apply (calmb_ok _ false); reflexivity | | div].
  destruct M as (_ & M & _). apply calm_next in M.
  apply (calm_join (x20 :: m) "x"%byte (lit "ref" ++ w_last T) M); [| div].
  change (x20 :: lit "ref" ++ w_last T) with ((x20 :: lit "ref") ++ w_last T). unfold w_last in *. apply calm_next in L.
  apply (calm_join (x20 :: lit "ref") x0a); [apply (calmb_ok _ false); reflexivity | exact L | div].
Qed.
Lemma part_last : forall x, exists a, pt_text x = a ++ [x0a].
Proof.
  intros x. eexists (w_objects (pt_objects x) ++ w_sect _ _ _ ++ x0a :: lit "startxref" ++ x0a :: dec _ ++ x0a :: lit "%%EOF"). unfold pt_text, w_part, w_end. apps. reflexivity.
Qed.

(** ** The layout *)
Fixpoint pt_layout (off : Z) (ps : list part) : list (Z * part) :=
  match ps with [] => [] | x :: ps' => (off, x) :: pt_layout (off + zlen (pt_text x)) ps' end.
Definition pt_places (off : Z) (ps : list part) : list (Z * iobj) := flat_map (fun y => w_places (fst y) (pt_objects (snd y))) (pt_layout off ps).
Lemma parts_first : forall ps, Forall good_part ps -> free_start (pt_all ps).
Proof.
  intros [| x ps] G; [discriminate |]. unfold pt_all. cbn [flat_map]. rewrite part_parts, <- app_assoc. inversion G as [| ? ? G1 _]; subst.
  apply objects_start; [exact (gp_objects _ G1) |]. unfold pt_tail. rewrite <- app_assoc. apply xref_start.
Qed.
Lemma headers_parts : forall ps off p w q, Forall good_part ps -> ws_byte w -> pt_all ps = p ++ w :: lit "obj" ++ q ->
  exists pre o, p = pre ++ dec (inum o) ++ x20 :: dec (igen o) /\ w = x20 /\ In (off + zlen pre, o) (pt_places off ps) /\ (pre = [] \/ exists x, pre = x ++ [x0a]).
Proof.
  induction ps as [| x ps IH]; intros off p w q G W Q; [destruct p; discriminate Q |]. unfold pt_all in Q. cbn [flat_map] in Q. fold (pt_all ps) in Q. inversion G as [| ? ? G1 G']; subst.
  rewrite part_parts, <- app_assoc in Q. unfold pt_places. cbn [pt_layout flat_map fst snd]. fold (pt_places (off + zlen (pt_text x)) ps).
  destruct (headers_in (pt_objects x) (pt_tail x ++ pt_all ps) p w q (gp_objects _ G1)) as [(D1 & o & D2 & QD & -> & ->) | (p' & -> & QT)]; [unfold pt_tail; rewrite <- app_assoc; apply xref_start | exact W | exact Q | |].
  - exists (w_objects D1), o. split; [reflexivity |]. split; [reflexivity |]. split.
    + apply in_or_app. left. apply places_split. exists D1, D2. auto.
    + destruct D1 as [| y D1 _] using rev_ind; [left; reflexivity |]. right. unfold w_objects. rewrite flat_map_app. cbn [flat_map]. rewrite app_nil_r. exists (flat_map w_object D1 ++ w_head y ++ x0a :: w_value y ++ x0a :: lit "endobj"). unfold w_object. apps. reflexivity.
  - destruct (calm_skip _ _ p' w q (ptail_calm _ G1) (parts_first _ G') W QT) as (p2 & -> & Q2).
    destruct (IH (off + zlen (pt_text x)) p2 w q G' W Q2) as (pre & o & -> & -> & I & PE). exists (pt_text x ++ pre), o.
    split; [rewrite part_parts; apps; reflexivity |]. split; [reflexivity |]. split.
    + apply in_or_app. right. rewrite zlen_app, Z.add_assoc. exact I.
    + right. destruct PE as [-> | [y ->]]; [rewrite app_nil_r; apply part_last | exists (pt_text x ++ y); apps; reflexivity].
Qed.
Lemma not_in_ptail : forall x, good_part x -> exists M, pt_tail x = M ++ x0a :: lit "%%EOF" ++ [x0a] /\ ~ In "%"%byte M.
Proof.
  intros x G. pose proof (pmid_quiet _ G) as (M & _ & _). set (T := pt_start x). exists (lit "xref" ++ pt_mid x ++ lit "xref" ++ x0a :: dec T). split.
  - unfold pt_tail, w_last. fold T. apps. reflexivity.
  - pose proof (quiet_nat _ _ (dec_text _ (gp_start _ G))) as (Q & _ & _). fold T in Q.
    intros I. apply in_app_or in I. destruct I as [I | I]; [vm_compute in I; intuition discriminate |]. apply in_app_or in I. destruct I as [I | I]; [exact (M I) |].
    apply in_app_or in I. destruct I as [I | I]; [vm_compute in I; intuition discriminate |]. destruct I as [I | I]; [discriminate I | exact (Q I)].
Qed.
Lemma parts_tame : forall ps, Forall good_part ps -> tame (pt_all ps).
Proof.
  induction ps as [| x ps IH]; intros G; [apply tame_no; intros [] |]. unfold pt_all. cbn [flat_map]. fold (pt_all ps). inversion G as [| ? ? G1 G']; subst.
  destruct (not_in_ptail _ G1) as (M & QM & NM). rewrite part_parts, QM.
  replace ((w_objects (pt_objects x) ++ M ++ x0a :: lit "%%EOF" ++ [x0a]) ++ pt_all ps) with (w_objects (pt_objects x) ++ M ++ x0a :: lit "%%EOF" ++ x0a :: pt_all ps) by (apps; reflexivity).
  apply objects_tame; [exact (gp_objects _ G1) |]. apply tame_join; [apply tame_no; exact NM |]. apply (tame_join (lit "%%EOF")); [apply tame_free, occurs_check; vm_compute; reflexivity | exact (IH G')].
Qed.
Lemma places_shape : forall ps off k o, Forall good_part ps -> In (k, o) (pt_places off ps) -> lay_object o.
Proof.
  induction ps as [| x ps IH]; intros off k o G I; [destruct I |]. inversion G as [| ? ? G1 G']; subst. unfold pt_places in I. cbn [pt_layout flat_map fst snd] in I. apply in_app_or in I. destruct I as [I | I]; [| exact (IH _ k o G' I)].
  apply places_split in I. destruct I as (D1 & D2 & Q & _). apply (gp_objects _ G1). rewrite Q. apply in_or_app. right. left. reflexivity.
Qed.
Lemma parts_text_tame : forall ps, Forall good_part ps -> tame (w_version ++ pt_all ps).
Proof.
  intros ps G. unfold w_version. rewrite <- app_assoc. cbn [app]. apply (tame_join (lit "%PDF-1.7")); [| apply parts_tame; exact G].
  apply tame_free, occurs_check. vm_compute. reflexivity.
Qed.
Theorem parts_markers : forall ps, Forall good_part ps -> only_at (w_version ++ pt_all ps) (map fst (pt_places (zlen w_version) ps)).
Proof.
  intros ps GP i (B & t & r & Z0 & M). set (file := w_version ++ pt_all ps) in *. inversion M as [a n s b g s' A S B0 S' QT]; subst t.
  pose proof (ztake_zdrop _ i file (proj1 B)) as F. set (u := ztake i file) in *. rewrite Z0 in F.
  assert (LU : zlen u = i). { assert (zlen (u ++ (a ++ s ++ b ++ s' ++ lit "obj") ++ r) = zlen file) by (rewrite F; reflexivity). rewrite zlen_app, <- Z0, zdrop_len in H by lia. lia. }
  assert (CM : forall x c, s' = x ++ "%"%byte :: c -> In x0a c).
  { intros x c Q. apply (parts_text_tame ps GP (u ++ a ++ s ++ b ++ x) c r). fold file. rewrite <- F, Q. apps. reflexivity. }
  assert (W3 : exists s2 w, s' = s2 ++ [w] /\ ws_byte w).
  { destruct (sep_tail s' S') as [(s1 & w & Q & W & _) | (x & c & Q & C)]; [eauto | exfalso]. apply (C x0a (CM x c Q)). vm_compute. tauto. }
  destruct W3 as (s2 & w & QS & W3).
  assert (F' : w_version ++ pt_all ps = (u ++ a ++ s ++ b ++ s2) ++ w :: lit "obj" ++ r).
  { fold file. rewrite <- F, QS. apps. reflexivity. }
  destruct (calm_skip w_version _ _ w _ ltac:(apply (calmb_ok _ false); reflexivity) (parts_first _ GP) W3 F') as (p' & Q1 & Q2).
  destruct (headers_parts ps (zlen w_version) p' w _ GP W3 Q2) as (pre & o & -> & -> & I & PE).
  pose proof (places_shape _ _ _ _ GP I) as Go. pose proof (lo_number _ Go) as N1. pose proof (lo_generation _ Go) as N2.
  assert (PE' : w_version ++ pre = [] \/ exists x, w_version ++ pre = x ++ [x0a]).
  { right. destruct PE as [-> | [x ->]]; [exists (lit "%PDF-1.7"); rewrite app_nil_r; reflexivity | exists (w_version ++ x); apps; reflexivity]. }
  assert (EQ : u ++ a ++ s ++ b ++ s' = (w_version ++ pre) ++ dec (inum o) ++ x20 :: dec (igen o) ++ [x20]).
  { rewrite QS. replace (u ++ a ++ s ++ b ++ s2 ++ [x20]) with ((u ++ a ++ s ++ b ++ s2) ++ [x20]) by (apps; reflexivity). rewrite Q1. apps. reflexivity. }
  destruct (white_seps u a n s b g s' (w_version ++ pre) (inum o) (igen o) A S B0 S' ltac:(lia) ltac:(lia) PE' CM EQ) as [W1 W2].
  destruct (header_back u a n s b g s' (w_version ++ pre) (inum o) (igen o) A W1 B0 W2 ltac:(lia) ltac:(lia)) as (x & X1 & X2); [| exact EQ |].
  { intros c r0 Q. destruct PE' as [Q' | [x Q']]; rewrite Q' in Q; [destruct r0; discriminate Q |]. apply app_inj_tail in Q. destruct Q as [_ <-]. reflexivity. }
  exists (zlen (w_version ++ pre)). assert (QI : i = zlen (w_version ++ pre) + zlen x) by (rewrite <- LU, X2, zlen_app; reflexivity).
  split; [| split].
  - apply in_map_iff. exists (zlen w_version + zlen pre, o). split; [rewrite zlen_app; reflexivity | exact I].
  - pose proof (zlen_nonneg _ x). lia.
  - intros m Bm. destruct (zdrop_in file (zlen (w_version ++ pre)) x ((a ++ s ++ b ++ s' ++ lit "obj") ++ r) m) as (c & q & Zc & Ic).
    + apply zlen_nonneg.
    + rewrite <- F, X2. rewrite <- app_assoc. apply zdrop_app.
    + lia.
    + destruct (isdigit_dec c) as [d Dd]; [apply (dec_isdigit (inum o) ltac:(lia)); rewrite X1; apply in_or_app; left; exact Ic |]. exists c, q, d. auto.
Qed.

(** ** The objects *)
Lemma layout_at : forall ps off o x, In (o, x) (pt_layout off ps) -> exists a b, pt_all ps = a ++ pt_text x ++ b /\ o = off + zlen a /\ (a = [] \/ exists c, a = c ++ [x0a]).
Proof.
  induction ps as [| y ps IH]; intros off o x I; [destruct I |]. cbn [pt_layout] in I. unfold pt_all. cbn [flat_map]. fold (pt_all ps). destruct I as [Q | I].
  - injection Q as <- <-. exists [], (pt_all ps). split; [reflexivity |]. split; [cbn; lia | left; reflexivity].
  - destruct (IH _ _ _ I) as (a & b & -> & -> & C). exists (pt_text y ++ a), b. split; [apps; reflexivity |]. split; [rewrite zlen_app; lia |]. right.
    destruct C as [-> | [c ->]]; [rewrite app_nil_r; apply part_last | exists (pt_text y ++ c); apps; reflexivity].
Qed.
Lemma parts_split : forall ps k o, In (k, o) (pt_places (zlen w_version) ps) -> exists pre r, w_version ++ pt_all ps = (pre ++ [x0a]) ++ w_object o ++ r /\ k = zlen (pre ++ [x0a]).
Proof.
  intros ps k o I. unfold pt_places in I. apply in_flat_map in I. destruct I as ([off x] & Ix & I). cbn [fst snd] in I. destruct (layout_at _ _ _ _ Ix) as (a & b & QA & QO & C).
  apply places_split in I. destruct I as (D1 & D2 & QD & ->).
  assert (QF : w_version ++ pt_all ps = (w_version ++ a ++ w_objects D1) ++ w_object o ++ (w_objects D2 ++ pt_tail x ++ b)).
  { rewrite QA, part_parts, QD. unfold w_objects at 1. rewrite flat_map_app. cbn [flat_map]. apps. reflexivity. }
  assert (QK : off + zlen (w_objects D1) = zlen (w_version ++ a ++ w_objects D1)) by (rewrite !zlen_app; lia). rewrite QK.
  assert (QE : exists x, w_version ++ a ++ w_objects D1 = x ++ [x0a]).
  { destruct D1 as [| y D1 _] using rev_ind.
    - cbn [w_objects flat_map]. rewrite app_nil_r. destruct C as [-> | [c ->]]; [exists (lit "%PDF-1.7"); rewrite app_nil_r; reflexivity | exists (w_version ++ c); apps; reflexivity].
    - unfold w_objects. rewrite flat_map_app. cbn [flat_map]. rewrite app_nil_r. exists (w_version ++ a ++ flat_map w_object D1 ++ w_head y ++ x0a :: w_value y ++ x0a :: lit "endobj"). unfold w_object. apps. reflexivity. }
  destruct QE as [y QX]. rewrite QX in QF |- *. exists y. eexists. split; [exact QF | reflexivity].
Qed.
Lemma parts_listed : forall ps, Forall good_part ps -> forall k o, In (k, o) (pt_places (zlen w_version) ps) -> listed_at (w_version ++ pt_all ps) k (inum o) (igen o).
Proof. intros ps G k o I. destruct (parts_split ps k o I) as (pre & r & QF & QK). eapply listed_text; [exact (places_shape _ _ _ _ G I) | exact QF | exact QK]. Qed.
Lemma parts_object : forall E ps k o, In (k, o) (pt_places (zlen w_version) ps) -> good_object o -> object_at E (w_version ++ pt_all ps) k (as_written o).
Proof.
  intros E ps k o I Go. destruct (parts_split ps k o I) as (pre & z & QF & QK). rewrite QK.
  destruct (as_written_num o) as [A1 A2]. pose proof (lo_number _ (go_lay _ Go)) as N1. pose proof (lo_generation _ (go_lay _ Go)) as N2. split.
  - apply zlen_nonneg.
  - rewrite A1. lia.
  - rewrite A2. lia.
  - intros b q d _ Z0 DD. rewrite QF, zdrop_before in Z0. injection Z0 as <- _. apply decdigit_spec in DD. destruct DD. discriminate.
  - exists (w_head o), (x0a :: w_value o ++ x0a :: lit "endobj" ++ x0a :: z). split; [| split].
    + rewrite QF, zdrop_app. unfold w_object. apps. reflexivity.
    + rewrite A1, A2. apply head_header, go_lay. exact Go.
    + apply written_behind. exact Go.
  - intros d QV. apply (lay_type o d (go_lay _ Go) QV).
Qed.

(** ** Every "xref" *)
Definition pt_table (y : Z * part) : Z := fst y + zlen (w_objects (pt_objects (snd y))).
Definition pt_word (y : Z * part) : Z := pt_table y + 4 + zlen (pt_mid (snd y)).
Lemma pt_xrefs_in : forall ps off u v, Forall good_part ps -> pt_all ps = u ++ lit "xref" ++ v -> exists y, In y (pt_layout off ps) /\ (off + zlen u = pt_table y \/ off + zlen u = pt_word y).
Proof.
  induction ps as [| x ps IH]; intros off u v G Q; [destruct u; discriminate Q |]. unfold pt_all in Q. cbn [flat_map] in Q. fold (pt_all ps) in Q. cbn [pt_layout]. inversion G as [| ? ? G1 G']; subst.
  rewrite part_parts, <- app_assoc in Q. pose proof (objects_xref _ (gp_objects _ G1)) as NO. pose proof (pmid_quiet _ G1) as (_ & _ & NM). unfold pt_tail in Q. rewrite <- !app_assoc in Q.
  destruct (xref_next _ _ _ _ NO Q) as [[-> _] | (u' & -> & Q2)].
  { exists (off, x). split; [left; reflexivity |]. left. reflexivity. }
  destruct (xref_next _ _ _ _ NM Q2) as [[-> _] | (u2 & -> & Q3)].
  { exists (off, x). split; [left; reflexivity |]. right. unfold pt_word, pt_table. cbn [fst snd]. rewrite !zlen_app. change (zlen (lit "xref")) with 4. lia. }
  assert (NX : ~ In "x"%byte (w_last (pt_start x))).
  { intros I. unfold w_last in I. destruct I as [I | I]; [discriminate I |]. apply in_app_or in I. destruct I as [I | I]; [apply (dec_isdigit _ (gp_start _ G1)) in I; discriminate I | vm_compute in I; intuition discriminate]. }
  destruct (not_in_first _ _ _ u2 (lit "ref" ++ v) NX Q3) as (u3 & -> & Q4).
  destruct (IH (off + zlen (pt_text x)) u3 v G' Q4) as (y & I & C). exists y. split; [right; exact I |].
  replace (off + zlen (w_objects (pt_objects x) ++ lit "xref" ++ pt_mid x ++ lit "xref" ++ w_last (pt_start x) ++ u3)) with (off + zlen (pt_text x) + zlen u3); [exact C |].
  rewrite part_parts. unfold pt_tail. rewrite !zlen_app. lia.
Qed.
Lemma pt_xrefs_only : forall ps, Forall good_part ps -> forall i, In i (find_xref_offsets (w_version ++ pt_all ps)) -> exists y, In y (pt_layout (zlen w_version) ps) /\ (i = pt_table y \/ i = pt_word y).
Proof.
  intros ps G i I. set (file := w_version ++ pt_all ps) in *. apply (proj2 (xref_positions file)) in I. destruct I as (B & t & r & Z0 & ->). pose proof (ztake_zdrop _ i file (proj1 B)) as F. rewrite Z0 in F.
  assert (LU : zlen (ztake i file) = i) by (rewrite ztake_firstn by lia; unfold zlen in *; rewrite firstn_length; lia). set (u := ztake i file) in *.
  assert (NX : ~ In "x"%byte w_version) by (vm_compute; intuition discriminate).
  destruct (not_in_first _ _ (pt_all ps) u (lit "ref" ++ r) NX) as (u' & QU & Q); [symmetry; exact F |].
  destruct (pt_xrefs_in ps (zlen w_version) u' r G Q) as (x & I & C). exists x. split; [exact I |]. rewrite <- LU, QU, zlen_app. exact C.
Qed.
Lemma pt_table_at : forall ps y, In y (pt_layout (zlen w_version) ps) -> exists z, zdrop (pt_table y) (w_version ++ pt_all ps) = pt_tail (snd y) ++ z /\ 0 <= pt_table y.
Proof.
  intros ps [o x] I. destruct (layout_at _ _ _ _ I) as (a & b & QA & QO & _). exists b. cbn [snd]. unfold pt_table. cbn [fst snd]. split; [| subst o; pose proof (zlen_nonneg _ a); pose proof (zlen_nonneg _ w_version); pose proof (zlen_nonneg _ (w_objects (pt_objects x))); lia].
  rewrite QA, part_parts. replace (w_version ++ a ++ (w_objects (pt_objects x) ++ pt_tail x) ++ b) with ((w_version ++ a ++ w_objects (pt_objects x)) ++ pt_tail x ++ b) by (apps; reflexivity).
  replace (o + zlen (w_objects (pt_objects x))) with (zlen (w_version ++ a ++ w_objects (pt_objects x))) by (rewrite !zlen_app; lia). apply zdrop_app.
Qed.
Lemma pt_data : forall ps, Forall good_part ps -> forall y, In y (pt_layout (zlen w_version) ps) -> exists g0 g1 T g2 t z,
  zdrop (pt_table y) (w_version ++ pt_all ps) = g0 ++ lit "xref" ++ g1 ++ T ++ lit "trailer" ++ g2 ++ t ++ z /\
  gap g0 /\ gap g1 /\ g1 <> [] /\ table_text T (u_lines [] (pt_lines (snd y))) /\ gap g2 /\ obj_text t (ODict (pt_dict (snd y))) /\
  zlen (g0 ++ lit "xref" ++ g1 ++ T ++ lit "trailer" ++ g2) mod bufsize <> bufsize - 1.
Proof.
  intros ps G y I. destruct (pt_table_at ps y I) as (z & Z0 & _). assert (G1 : good_part (snd y)).
  { clear Z0. revert I. generalize (zlen w_version). induction ps as [| x ps IH]; intros off I; [destruct I |]. inversion G; subst. destruct I as [<- | I]; [assumption | eapply IH; eassumption]. }
  destruct y as [o x]. cbn [fst snd] in *. set (l := pt_lines x) in *. set (d := pt_dict x) in *.
  exists [], [x0a], (w_entries [] l), (w_break (lit "xref" ++ x0a :: w_entries [] l ++ lit "trailer")), (w_obj (ODict d)). eexists.
  split; [| split; [constructor | split; [apply gap1, lf_ws | split; [discriminate | split; [| split; [apply break_gap | split; [apply w_obj_text; exact (gp_dict _ G1) |]]]]]]].
  - rewrite Z0. unfold pt_tail, pt_mid, w_mid. fold l d. apps. reflexivity.
  - apply entries_text; [intros n [] | exact (gp_lines _ G1)].
  - match goal with |- zlen ?x mod _ <> _ => replace x with ((lit "xref" ++ x0a :: w_entries [] l ++ lit "trailer") ++ w_break (lit "xref" ++ x0a :: w_entries [] l ++ lit "trailer")) by (apps; reflexivity) end. apply break_ok.
Qed.
