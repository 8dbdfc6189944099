(** UpdateP.v -- where the objects and the sections are in a document that
    SpecUpdate gives (C95). *)
From Verif Require Import Base BaseP Msg Reader ReaderP Num NumP Lexer Plain LexerP Obj Bits Filters Env SpecLex SpecLexP SpecObj SpecObjP SpecNumP SpecFilters FiltersP SpecFetch SpecStream SpecScan ScanP SpecXref
  StreamEx SpecRecover RecoverP SpecWrite WriteP WriteDocP WriteLoadP SpecUpdate.
From Coq Require Import Strings.String Sorting.Permutation Sorting.Sorted.

(** ** The parts of a revision *)
Definition w_mid (freed : list Z) (l : list (Z * iobj)) (d : dict) : bytes :=
  x0a :: w_entries freed l ++ lit "trailer" ++ w_break (lit "xref" ++ x0a :: w_entries freed l ++ lit "trailer") ++ w_obj (ODict d) ++ x0a :: lit "start".
Definition w_rtail (off : Z) (prev : option Z) (r : revision) : bytes :=
  lit "xref" ++ w_mid (rv_freed r) (w_places off (rv_objects r)) (with_prev prev (rv_trailer r)) ++ lit "xref" ++ w_last (w_table_at off r).
Lemma revision_parts : forall off prev r, w_revision off prev r = w_objects (rv_objects r) ++ w_rtail off prev r.
Proof. intros off prev r. unfold w_revision, w_rtail, w_sect, w_mid, w_end, w_last. apps. reflexivity. Qed.

(** what is needed of a revision at its offset *)
Record placed_well (off : Z) (prev : option Z) (r : revision) : Prop := {
  pw_revision : lay_revision r;
  pw_off : 0 <= off;
  pw_places : forall p, In p (w_places off (rv_objects r)) -> good_place p;
  pw_table : w_table_at off r < 10 ^ 10;
  pw_prev : forall q, prev = Some q -> 0 <= q < 10 ^ 10
}.
Lemma prev_printable : forall off prev r, placed_well off prev r -> printable (ODict (with_prev prev (rv_trailer r))).
Proof.
  intros off prev r PW. pose proof (lv_trailer _ (pw_revision _ _ _ PW)) as T. destruct prev as [q |]; [| exact T]. cbn [with_prev].
  pose proof (lv_prev _ (pw_revision _ _ _ PW)) as N. pose proof (pw_prev _ _ _ PW q eq_refl) as B. destruct T as [ND V]. split.
  - rewrite map_app. apply (Permutation_NoDup (Permutation_cons_append (map fst (rv_trailer r)) (lit "Prev"))). constructor; assumption.
  - clear ND N. induction (rv_trailer r) as [| [k x] d IH]; cbn [app].
    + split; [apply occurs_check; vm_compute; reflexivity |]. split; [| exact Logic.I]. exists q. split; [| reflexivity]. assert (10 ^ 10 < 2 ^ 53) by reflexivity. lia.
    + destruct V as (V1 & V2 & V3). split; [exact V1 |]. split; [exact V2 | exact (IH V3)].
Qed.
Lemma free_line : forall n, 0 < n <= 2 ^ 53 -> exists u, w_free n = u ++ [x0a] /\ quiet u.
Proof.
  intros n B. destruct (line_line 0 65535 (lit "f")) as (u & Q & U); [lia | lia | quietc |]. exists (dec n ++ x20 :: lit "1" ++ x0a :: u). unfold w_free. rewrite Q. split; [apps; reflexivity |].
  apply quiet_join; [eapply quiet_nat, dec_text; lia | | div]. apply (quiet_join (lit "1") x0a); [quietc | exact U | div].
Qed.
Lemma entries_quiet : forall F l v, (forall n, In n F -> 0 < n <= 2 ^ 53) -> (forall p, In p l -> good_place p) -> quiet v -> quiet (w_entries F l ++ v).
Proof.
  intros F l v GF G V. unfold w_entries. destruct (line_line 0 65535 (lit "f")) as (u & Q & U); [lia | lia | quietc |]. rewrite Q. repeat rewrite <- app_assoc. cbn [app].
  apply (quiet_join (lit "0 1") x0a); [quietc | | div]. repeat rewrite <- app_assoc. cbn [app]. apply quiet_join; [exact U | | div].
  apply quiet_lines; [intros n I; apply free_line, GF, I |]. apply quiet_lines; [intros p I; apply sub_line, G, I | exact V].
Qed.
Lemma mid_quiet : forall F l d, (forall n, In n F -> 0 < n <= 2 ^ 53) -> (forall p, In p l -> good_place p) -> printable (ODict d) -> quiet (w_mid F l d).
Proof.
  intros F l d GF G P. unfold w_mid. apply quiet_cons; [| div]. apply entries_quiet; [exact GF | exact G |].
  assert (K : quiet (w_obj (ODict d) ++ x0a :: lit "start")) by (apply quiet_join; [apply quiet_obj; exact P | quietc | div]).
  destruct (break_cases (lit "xref" ++ x0a :: w_entries F l ++ lit "trailer")) as [-> | ->].
  - cbn [app]. apply (quiet_join (lit "trailer") x20); [quietc | | div]. apply quiet_cons; [exact K | div].
  - cbn [app]. apply (quiet_join (lit "trailer") x0a); [quietc | exact K | div].
Qed.
Lemma rmid_quiet : forall off prev r, placed_well off prev r -> quiet (w_mid (rv_freed r) (w_places off (rv_objects r)) (with_prev prev (rv_trailer r))).
Proof.
  intros off prev r PW. apply mid_quiet; [exact (lv_freed _ (pw_revision _ _ _ PW)) | exact (pw_places _ _ _ PW) | eapply prev_printable; exact PW].
Qed.
Lemma table_nonneg : forall off r, 0 <= off -> 0 <= w_table_at off r.
Proof. intros off r O. unfold w_table_at. pose proof (zlen_nonneg _ (w_objects (rv_objects r))). lia. Qed.
Lemma rtail_calm : forall off prev r, placed_well off prev r -> calm (w_rtail off prev r).
Proof.
  intros off prev r PW. unfold w_rtail. pose proof (rmid_quiet _ _ _ PW) as M. set (T := w_table_at off r). pose proof (last_calm T (table_nonneg off r (pw_off _ _ _ PW))) as L.
  set (mm := w_mid _ _ _) in *. assert (M' : exists m, mm = x0a :: m) by (eexists; unfold mm, w_mid; reflexivity). destruct M' as [m Q]. rewrite Q in *. cbn [app].
  apply (calm_join (lit "xref") x0a); [apply (calmb_ok _ false); reflexivity | | div].
  destruct M as (_ & M & _). apply calm_next in M.
  apply (calm_join (x20 :: m) "x"%byte (lit "ref" ++ w_last T) M); [| div].
  change (x20 :: lit "ref" ++ w_last T) with ((x20 :: lit "ref") ++ w_last T). unfold w_last in *. apply calm_next in L.
  apply (calm_join (x20 :: lit "ref") x0a); [apply (calmb_ok _ false); reflexivity | exact L | div].
Qed.

(** ** The layout *)
Fixpoint w_layout (off : Z) (prev : option Z) (rs : list revision) : list (Z * option Z * revision) :=
  match rs with
  | [] => []
  | r :: rs' => (off, prev, r) :: w_layout (off + zlen (w_revision off prev r)) (Some (w_table_at off r)) rs'
  end.
Definition laid_well (x : Z * option Z * revision) : Prop := placed_well (fst (fst x)) (snd (fst x)) (snd x).
Lemma revision_last : forall off prev r, exists a, w_revision off prev r = a ++ [x0a].
Proof.
  intros off prev r. eexists (w_objects (rv_objects r) ++ w_sect _ _ _ ++ x0a :: lit "startxref" ++ x0a :: dec _ ++ x0a :: lit "%%EOF"). unfold w_revision, w_end. apps. reflexivity.
Qed.
Lemma layout_split : forall rs off prev L1 o q r L2, w_layout off prev rs = L1 ++ (o, q, r) :: L2 -> exists rs1 rs2 a,
  rs = rs1 ++ r :: rs2 /\ w_revisions off prev rs = a ++ w_revision o q r ++ w_revisions (o + zlen (w_revision o q r)) (Some (w_table_at o r)) rs2 /\
  L2 = w_layout (o + zlen (w_revision o q r)) (Some (w_table_at o r)) rs2 /\ o = off + zlen a /\
  (L1 = [] /\ a = [] /\ rs1 = [] /\ q = prev \/ exists a' L1' o' q' r', a = a' ++ [x0a] /\ rs1 <> [] /\ L1 = L1' ++ [(o', q', r')] /\ q = Some (w_table_at o' r') /\ w_table_at o' r' < o).
Proof.
  induction rs as [| r0 rs IH]; intros off prev L1 o q r L2 H; [destruct L1; discriminate H |]. cbn [w_layout] in H. destruct L1 as [| x L1].
  - cbn [app] in H. injection H as <- <- <- <-. exists [], rs, []. split; [reflexivity |]. split; [reflexivity |]. split; [reflexivity |]. split; [cbn; lia |]. left. auto.
  - cbn [app] in H. injection H as <- H. destruct (IH _ _ _ _ _ _ _ H) as (rs1 & rs2 & a & -> & QR & QL & QO & CS). exists (r0 :: rs1), rs2, (w_revision off prev r0 ++ a).
    split; [reflexivity |]. split; [cbn [w_revisions]; rewrite QR; apps; reflexivity |]. split; [exact QL |]. split; [rewrite zlen_app; lia |]. right.
    destruct CS as [(-> & -> & -> & ->) | (a' & L1' & o' & q' & r' & -> & _ & -> & -> & LT)].
    + destruct (revision_last off prev r0) as [b Qb]. exists b, [], off, prev, r0. split; [rewrite app_nil_r; exact Qb |]. split; [discriminate |]. split; [reflexivity |]. split; [reflexivity |].
      rewrite QO. unfold w_table_at. rewrite revision_parts, zlen_app. unfold w_rtail. rewrite zlen_app. change (zlen (lit "xref")) with 4. change (zlen (@nil byte)) with 0. pose proof (zlen_nonneg _ (w_objects (rv_objects r0))).
      match goal with |- context [4 + zlen ?x] => pose proof (zlen_nonneg _ x) end. lia.
    + exists (w_revision off prev r0 ++ a'), ((off, prev, r0) :: L1'), o', q', r'. split; [apps; reflexivity |]. split; [discriminate |]. split; [reflexivity |]. split; [reflexivity | exact LT].
Qed.
Lemma layout_sub : forall rs off prev r, In r rs -> exists o q, In (o, q, r) (w_layout off prev rs).
Proof.
  induction rs as [| r0 rs IH]; intros off prev r I; [destruct I |]. cbn [w_layout]. destruct I as [<- | I]; [exists off, prev; left; reflexivity |].
  destruct (IH (off + zlen (w_revision off prev r0)) (Some (w_table_at off r0)) r I) as (o & q & K). exists o, q. right. exact K.
Qed.
Lemma rev_len : forall o q r, w_table_at o r + 4 <= o + zlen (w_revision o q r).
Proof.
  intros o q r. unfold w_table_at. rewrite revision_parts, zlen_app. unfold w_rtail. rewrite zlen_app. change (zlen (lit "xref")) with 4.
  match goal with |- context [4 + zlen ?x] => pose proof (zlen_nonneg _ x) end. lia.
Qed.
Lemma updated_laid : forall rs, lay_updates rs -> Forall laid_well (w_layout (zlen w_version) None rs).
Proof.
  intros rs GU. pose proof (lu_size _ GU) as SZ. unfold w_updated in SZ. rewrite zlen_app in SZ. set (v := zlen w_version) in *. assert (V : 0 <= v) by apply zlen_nonneg. clearbody v.
  assert (PV : forall q : Z, None = Some q -> 0 <= q < 10 ^ 10) by discriminate. pose proof (lu_revisions _ GU) as GR. clear GU. revert PV SZ. generalize (@None Z). revert V. revert v.
  induction rs as [| r rs IH]; intros v V pv PV SZ; [constructor |]. cbn [w_layout w_revisions] in *. rewrite zlen_app in SZ.
  pose proof (zlen_nonneg _ (w_revisions (v + zlen (w_revision v pv r)) (Some (w_table_at v r)) rs)) as N1. pose proof (rev_len v pv r) as LT.
  pose proof (table_nonneg v r V) as TN. assert (LB : w_table_at v r < 10 ^ 10) by lia. constructor.
  - unfold laid_well. cbn [fst snd]. split; [apply GR; left; reflexivity | exact V | | exact LB | exact PV].
    intros [k o] I. apply places_split in I. destruct I as (D1 & D2 & Q & ->). split; cbn [fst snd]; [| apply lo_shape, (lv_objects r (GR r (or_introl eq_refl))); rewrite Q; apply in_or_app; right; left; reflexivity].
    unfold w_table_at in LB. rewrite Q in LB. unfold w_objects in LB. rewrite flat_map_app, zlen_app in LB. fold (w_objects D1) in LB. pose proof (zlen_nonneg _ (w_objects D1)).
    match type of LB with _ + (_ + zlen ?x) < _ => pose proof (zlen_nonneg _ x) end. lia.
  - apply IH; [intros r' I; apply GR; right; exact I | pose proof (zlen_nonneg _ (w_revision v pv r)); lia | intros q Q; injection Q as <-; split; [exact TN | exact LB] | lia].
Qed.

(** ** Markers *)
Lemma revs_first : forall rs off prev, Forall laid_well (w_layout off prev rs) -> free_start (w_revisions off prev rs).
Proof.
  intros [| r0 rs] off prev LW; [discriminate |]. cbn [w_revisions w_layout] in *. rewrite revision_parts, <- app_assoc. inversion LW as [| ? ? PW _]; subst.
  apply objects_start; [exact (lv_objects _ (pw_revision _ _ _ PW)) |]. unfold w_rtail. rewrite <- app_assoc. apply xref_start.
Qed.
Definition all_places (L : list (Z * option Z * revision)) : list (Z * iobj) := flat_map (fun x => w_places (fst (fst x)) (rv_objects (snd x))) L.
Lemma headers_revs : forall rs off prev p w q, Forall laid_well (w_layout off prev rs) -> ws_byte w -> w_revisions off prev rs = p ++ w :: lit "obj" ++ q ->
  exists pre o, p = pre ++ dec (inum o) ++ x20 :: dec (igen o) /\ w = x20 /\ In (off + zlen pre, o) (all_places (w_layout off prev rs)) /\ (pre = [] \/ exists x, pre = x ++ [x0a]).
Proof.
  induction rs as [| r rs IH]; intros off prev p w q LW W Q; [destruct p; discriminate Q |]. cbn [w_revisions w_layout] in *. inversion LW as [| ? ? PW LW']; subst. unfold laid_well in PW. cbn [fst snd] in PW.
  set (R := w_revisions _ _ rs) in *. rewrite revision_parts, <- app_assoc in Q.
  destruct (headers_in (rv_objects r) (w_rtail off prev r ++ R) p w q (lv_objects _ (pw_revision _ _ _ PW))) as [(D1 & o & D2 & QD & -> & ->) | (p' & -> & QT)]; [unfold w_rtail; rewrite <- app_assoc; apply xref_start | exact W | exact Q | |].
  - exists (w_objects D1), o. split; [reflexivity |]. split; [reflexivity |]. split.
    + unfold all_places. cbn [flat_map fst snd]. apply in_or_app. left. apply places_split. exists D1, D2. auto.
    + destruct D1 as [| x D1 _] using rev_ind; [left; reflexivity |]. right. unfold w_objects. rewrite flat_map_app. cbn [flat_map]. rewrite app_nil_r. exists (flat_map w_object D1 ++ w_head x ++ x0a :: w_value x ++ x0a :: lit "endobj"). unfold w_object. apps. reflexivity.
  - destruct (calm_skip _ _ p' w q (rtail_calm _ _ _ PW) (revs_first _ _ _ LW') W QT) as (p2 & -> & Q2).
    destruct (IH _ _ p2 w q LW' W Q2) as (pre & o & -> & -> & I & PE). exists (w_revision off prev r ++ pre), o.
    split; [rewrite revision_parts; apps; reflexivity |]. split; [reflexivity |]. split.
    + unfold all_places. cbn [flat_map]. apply in_or_app. right. rewrite zlen_app, Z.add_assoc. exact I.
    + right. destruct PE as [-> | [x ->]]; [rewrite app_nil_r; apply revision_last | exists (w_revision off prev r ++ x); apps; reflexivity].
Qed.

Lemma not_in_tail : forall off prev r, placed_well off prev r -> exists M, w_rtail off prev r = M ++ x0a :: lit "%%EOF" ++ [x0a] /\ ~ In "%"%byte M.
Proof.
  intros off prev r PW. pose proof (rmid_quiet _ _ _ PW) as (M & _ & _). set (mm := w_mid _ _ _) in *. set (T := w_table_at off r). exists (lit "xref" ++ mm ++ lit "xref" ++ x0a :: dec T). split.
  - unfold w_rtail, w_last. fold mm T. apps. reflexivity.
  - pose proof (quiet_nat _ _ (dec_text _ (table_nonneg off r (pw_off _ _ _ PW)))) as (Q & _ & _). fold T in Q.
    intros I. apply in_app_or in I. destruct I as [I | I]; [vm_compute in I; intuition discriminate |]. apply in_app_or in I. destruct I as [I | I]; [exact (M I) |].
    apply in_app_or in I. destruct I as [I | I]; [vm_compute in I; intuition discriminate |]. destruct I as [I | I]; [discriminate I | exact (Q I)].
Qed.
Lemma revs_tame : forall rs off prev, Forall laid_well (w_layout off prev rs) -> tame (w_revisions off prev rs).
Proof.
  induction rs as [| r rs IH]; intros off prev LW; [apply tame_no; intros [] |]. cbn [w_revisions w_layout] in *. inversion LW as [| ? ? PW LW']; subst. unfold laid_well in PW. cbn [fst snd] in PW.
  destruct (not_in_tail _ _ _ PW) as (M & QM & NM). set (R := w_revisions _ _ rs). rewrite revision_parts, QM. pose proof (lv_objects _ (pw_revision _ _ _ PW)) as NO.
  replace ((w_objects (rv_objects r) ++ M ++ x0a :: lit "%%EOF" ++ [x0a]) ++ R) with (w_objects (rv_objects r) ++ M ++ x0a :: lit "%%EOF" ++ x0a :: R) by (apps; reflexivity).
  apply objects_tame; [exact NO |]. apply tame_join; [apply tame_no; exact NM |]. apply (tame_join (lit "%%EOF")); [apply tame_free, occurs_check; vm_compute; reflexivity | exact (IH _ _ LW')].
Qed.
Lemma updated_tame : forall rs, lay_updates rs -> tame (w_updated rs).
Proof.
  intros rs GU. unfold w_updated, w_version. rewrite <- app_assoc. cbn [app]. apply (tame_join (lit "%PDF-1.7")); [| apply revs_tame, updated_laid; exact GU].
  apply tame_free, occurs_check. vm_compute. reflexivity.
Qed.
Theorem updated_markers : forall rs, lay_updates rs -> only_at (w_updated rs) (map fst (all_places (w_layout (zlen w_version) None rs))).
Proof.
  intros rs GU i (B & t & r & Z0 & M). pose proof (updated_laid rs GU) as LW. set (file := w_updated rs) in *. inversion M as [a n s b g s' A S B0 S' QT]; subst t.
  pose proof (ztake_zdrop _ i file (proj1 B)) as F. set (u := ztake i file) in *. rewrite Z0 in F.
  assert (LU : zlen u = i). { assert (zlen (u ++ (a ++ s ++ b ++ s' ++ lit "obj") ++ r) = zlen file) by (rewrite F; reflexivity). rewrite zlen_app, <- Z0, zdrop_len in H by lia. lia. }
  assert (CM : forall x c, s' = x ++ "%"%byte :: c -> In x0a c).
  { intros x c Q. apply (updated_tame rs GU (u ++ a ++ s ++ b ++ x) c r). fold file. rewrite <- F, Q. apps. reflexivity. }
  assert (W3 : exists s2 w, s' = s2 ++ [w] /\ ws_byte w).
  { destruct (sep_tail s' S') as [(s1 & w & Q & W & _) | (x & c & Q & C)]; [eauto | exfalso]. apply (C x0a (CM x c Q)). vm_compute. tauto. }
  destruct W3 as (s2 & w & QS & W3).
  assert (F' : w_version ++ w_revisions (zlen w_version) None rs = (u ++ a ++ s ++ b ++ s2) ++ w :: lit "obj" ++ r).
  { fold (w_updated rs). fold file. rewrite <- F, QS. apps. reflexivity. }
  destruct (calm_skip w_version _ _ w _ ltac:(apply (calmb_ok _ false); reflexivity) (revs_first _ _ _ LW) W3 F') as (p' & Q1 & Q2).
  destruct (headers_revs rs _ _ p' w _ LW W3 Q2) as (pre & o & -> & -> & I & PE).
  assert (Go : lay_shape o).
  { unfold all_places in I. apply in_flat_map in I. destruct I as (x & Ix & I). rewrite Forall_forall in LW. specialize (LW x Ix). apply (pw_places _ _ _ LW) in I. apply I. }
  destruct Go as [N1 N2 _ _].
  assert (PE' : w_version ++ pre = [] \/ exists x, w_version ++ pre = x ++ [x0a]).
  { right. destruct PE as [-> | [x ->]]; [exists (lit "%PDF-1.7"); rewrite app_nil_r; reflexivity | exists (w_version ++ x); apps; reflexivity]. }
  assert (EQ : u ++ a ++ s ++ b ++ s' = (w_version ++ pre) ++ dec (inum o) ++ x20 :: dec (igen o) ++ [x20]).
  { rewrite QS. replace (u ++ a ++ s ++ b ++ s2 ++ [x20]) with ((u ++ a ++ s ++ b ++ s2) ++ [x20]) by (apps; reflexivity). rewrite Q1. apps. reflexivity. }
  destruct (white_seps u a n s b g s' (w_version ++ pre) (inum o) (igen o) A S B0 S' ltac:(lia) ltac:(lia) PE' CM EQ) as [W1 W2].
  destruct (header_back u a n s b g s' (w_version ++ pre) (inum o) (igen o) A W1 B0 W2 ltac:(lia) ltac:(lia)) as (x & X1 & X2); [| exact EQ |].
  { intros c r0 Q. destruct PE' as [Q' | [x Q']]; rewrite Q' in Q; [destruct r0; discriminate Q |]. apply app_inj_tail in Q. destruct Q as [_ <-]. reflexivity. }
  exists (zlen (w_version ++ pre)). assert (QI : i = zlen (w_version ++ pre) + zlen x) by (rewrite <- LU, X2, zlen_app; reflexivity).
  split; [| split].
  - apply in_map_iff. exists (zlen w_version + zlen pre, o). split; [rewrite zlen_app; reflexivity | exact I].
  - pose proof (zlen_nonneg _ x). lia.
  - intros m Bm. destruct (zdrop_in file (zlen (w_version ++ pre)) x ((a ++ s ++ b ++ s' ++ lit "obj") ++ r) m) as (c & q & Zc & Ic).
    + apply zlen_nonneg.
    + rewrite <- F, X2. rewrite <- app_assoc. apply zdrop_app.
    + lia.
    + destruct (isdigit_dec c) as [d Dd]; [apply (dec_isdigit (inum o) ltac:(lia)); rewrite X1; apply in_or_app; left; exact Ic |]. exists c, q, d. auto.
Qed.

(** ** The objects *)
Lemma updated_split : forall rs, lay_updates rs -> forall k o, In (k, o) (all_places (w_layout (zlen w_version) None rs)) ->
  exists pre r, w_updated rs = (pre ++ [x0a]) ++ w_object o ++ r /\ k = zlen (pre ++ [x0a]) /\ exists r0, In r0 rs /\ In o (rv_objects r0).
Proof.
  intros rs GU k o I. unfold all_places in I. apply in_flat_map in I. destruct I as ([[off q] r] & Ix & I). cbn [fst snd] in I.
  apply in_split in Ix. destruct Ix as (L1 & L2 & QL). destruct (layout_split _ _ _ _ _ _ _ _ QL) as (rs1 & rs2 & a & Qrs & QR & _ & QO & CS). set (R := w_revisions _ _ rs2) in QR.
  apply places_split in I. destruct I as (D1 & D2 & QD & ->).
  assert (QF : w_updated rs = (w_version ++ a ++ w_objects D1) ++ w_object o ++ (w_objects D2 ++ w_rtail off q r ++ R)).
  { unfold w_updated. rewrite QR, revision_parts, QD. unfold w_objects at 1. rewrite flat_map_app. cbn [flat_map]. apps. reflexivity. }
  assert (QK : off + zlen (w_objects D1) = zlen (w_version ++ a ++ w_objects D1)) by (rewrite !zlen_app; lia). rewrite QK.
  assert (QE : exists x, w_version ++ a ++ w_objects D1 = x ++ [x0a]).
  { destruct D1 as [| x D1 _] using rev_ind.
    - cbn [w_objects flat_map]. rewrite app_nil_r. destruct CS as [(_ & -> & _) | (a' & L1' & o' & q' & r' & -> & _)]; [exists (lit "%PDF-1.7"); rewrite app_nil_r; reflexivity | exists (w_version ++ a'); apps; reflexivity].
    - unfold w_objects. rewrite flat_map_app. cbn [flat_map]. rewrite app_nil_r. exists (w_version ++ a ++ flat_map w_object D1 ++ w_head x ++ x0a :: w_value x ++ x0a :: lit "endobj"). unfold w_object. apps. reflexivity. }
  destruct QE as [x QX]. rewrite QX in QF |- *. exists x. eexists. split; [exact QF |]. split; [reflexivity |]. exists r. split; [rewrite Qrs; apply in_or_app; right; left; reflexivity |]. rewrite QD. apply in_or_app. right. left. reflexivity.
Qed.
Lemma updated_listed : forall rs, lay_updates rs -> forall k o, In (k, o) (all_places (w_layout (zlen w_version) None rs)) -> listed_at (w_updated rs) k (inum o) (igen o).
Proof.
  intros rs GU k o I. destruct (updated_split rs GU k o I) as (pre & r & QF & QK & r0 & I0 & Io). eapply listed_text; [exact (lv_objects _ (lu_revisions _ GU r0 I0) o Io) | exact QF | exact QK].
Qed.
Lemma good_lays : forall rs, good_updates rs -> lay_updates rs.
Proof.
  intros rs [A B C D]. split; try assumption. intros r I. destruct (B r I) as [B1 B2 B3 B4 [B5 _]]. split; try assumption. intros o Io. apply go_lay, B1. exact Io.
Qed.
Lemma updated_object : forall E rs, good_updates rs -> forall k o, In (k, o) (all_places (w_layout (zlen w_version) None rs)) -> object_at E (w_updated rs) k (as_written o).
Proof.
  intros E rs GU k o I. destruct (updated_split rs (good_lays rs GU) k o I) as (pre & z & QF & QK & r0 & I0 & Io). rewrite QK.
  pose proof (gr_objects _ (gu_revisions _ GU r0 I0) o Io) as Go.
  destruct (as_written_num o) as [A1 A2]. pose proof (lo_number _ (go_lay _ Go)) as N1. pose proof (lo_generation _ (go_lay _ Go)) as N2. split.
  - apply zlen_nonneg.
  - rewrite A1. lia.
  - rewrite A2. lia.
  - intros b q d _ Z0 DD. rewrite QF, zdrop_before in Z0. injection Z0 as <- _. apply decdigit_spec in DD. destruct DD. discriminate.
  - exists (w_head o), (x0a :: w_value o ++ x0a :: lit "endobj" ++ x0a :: z). split; [| split].
    + rewrite QF, zdrop_app. unfold w_object. apps. reflexivity.
    + rewrite A1, A2. apply head_header, go_lay. exact Go.
    + apply written_behind. exact Go.
  - intros d QV. apply (lay_type o d (go_lay _ Go) QV).
Qed.
