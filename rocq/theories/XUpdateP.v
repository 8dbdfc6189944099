(** XUpdateP.v -- where the objects and the streams are in a document that
    SpecXUpdate gives (C111). *)
From Verif Require Import Base BaseP Msg Reader ReaderP Num NumP Lexer Plain LexerP Obj Bits Filters Env SpecLex SpecLexP SpecObj SpecObjP SpecNumP SpecFilters FiltersP SpecFetch SpecStream SpecScan ScanP SpecXref
  StreamEx SpecRecover RecoverP SpecWrite WriteP WriteDocP WriteLoadP WriteOutP SpecXWrite XWriteP SpecUpdate SpecXUpdate.
From Coq Require Import Strings.String Sorting.Permutation Sorting.Sorted.

Notation xelement := (Z * option Z * xrevision)%type.
Fixpoint x_layout (off : Z) (prev : option Z) (rs : list xrevision) : list xelement :=
  match rs with
  | [] => []
  | r :: rs' => (off, prev, r) :: x_layout (off + zlen (w_xrevision off r)) (Some (w_stream_at off r)) rs'
  end.
(** where the stream of an element is *)
Definition s_pos (x : xelement) : Z := w_stream_at (fst (fst x)) (snd x).
(** the objects of an element as they are written *)
Definition raw_places (x : xelement) : list (Z * iobj) := w_places (fst (fst x)) (xv_all (snd x)).
Definition all_raw (L : list xelement) : list (Z * iobj) := flat_map raw_places L.
Record xlaid_well (E : env) (x : xelement) : Prop := {
  xw_revision : lay_xrevision E (fst (fst x)) (snd (fst x)) (snd x);
  xw_off : 0 <= fst (fst x);
  xw_stream : s_pos x < 2 ^ 53;
  xw_prev : forall q, snd (fst x) = Some q -> 0 <= q < s_pos x
}.
Lemma all_shape : forall E off prev r, lay_xrevision E off prev r -> forall o, In o (xv_all r) -> lay_shape o.
Proof. intros E off prev r G o I. apply in_app_or in I. destruct I as [I | [<- | []]]; [exact (lo_shape _ (gv_objects _ _ _ _ G o I)) | exact (gv_stream _ _ _ _ G)]. Qed.
Lemma s_nonneg : forall off r, 0 <= off -> 0 <= w_stream_at off r.
Proof. intros off r O. unfold w_stream_at. pose proof (zlen_nonneg _ (w_objects (xv_objects r))). lia. Qed.
Lemma s_inside : forall off r, w_stream_at off r < off + zlen (w_xrevision off r).
Proof.
  intros off r. unfold w_xrevision, xv_all, w_objects. rewrite flat_map_app, !zlen_app. fold (w_objects (xv_objects r)). unfold w_stream_at at 1. cbn [flat_map].
  assert (1 <= zlen (w_end (w_stream_at off r))) by (unfold w_end; rewrite zlen_cons; match goal with |- context [zlen ?x + 1] => pose proof (zlen_nonneg _ x) | |- context [1 + zlen ?x] => pose proof (zlen_nonneg _ x) end; lia).
  pose proof (zlen_nonneg _ (w_object (xv_stream r) ++ [])). lia.
Qed.
Lemma xlayout_well : forall E rs off prev, 0 <= off -> (forall q, prev = Some q -> 0 <= q < off) -> lay_xrevisions E off prev rs -> off + zlen (w_xrevisions off rs) < 2 ^ 53 ->
  Forall (xlaid_well E) (x_layout off prev rs).
Proof.
  intros E. induction rs as [| r rs IH]; intros off prev O PV G SZ; [constructor |]. destruct G as [G1 G2]. cbn [w_xrevisions x_layout] in *. rewrite zlen_app in SZ.
  pose proof (s_inside off r) as LT. pose proof (s_nonneg off r O) as SN. pose proof (zlen_nonneg _ (w_xrevisions (off + zlen (w_xrevision off r)) rs)) as ZN. constructor.
  - split; cbn [fst snd]; [exact G1 | exact O | unfold s_pos; cbn [fst snd]; lia |]. intros q Q. apply PV in Q. unfold s_pos, w_stream_at. cbn [fst snd]. pose proof (zlen_nonneg _ (w_objects (xv_objects r))). lia.
  - apply IH; [lia | | exact G2 | lia]. intros q Q. injection Q as <-. lia.
Qed.
Lemma xupdated_laid : forall E rs, lay_xupdates E rs -> Forall (xlaid_well E) (x_layout (zlen w_version) None rs).
Proof.
  intros E rs G. apply xlayout_well; [apply zlen_nonneg | discriminate | exact (gxu_revisions _ _ G) |]. pose proof (gxu_size _ _ G) as SZ. unfold w_xupdated in SZ. rewrite zlen_app in SZ. exact SZ.
Qed.
Lemma xrevision_last : forall off r, exists a, w_xrevision off r = a ++ [x0a].
Proof. intros off r. eexists (w_objects (xv_all r) ++ x0a :: lit "startxref" ++ x0a :: dec _ ++ x0a :: lit "%%EOF"). unfold w_xrevision, w_end. apps. reflexivity. Qed.
Lemma xlayout_split : forall rs off prev L1 o q r L2, x_layout off prev rs = L1 ++ (o, q, r) :: L2 -> exists rs1 rs2 a,
  rs = rs1 ++ r :: rs2 /\ w_xrevisions off rs = a ++ w_xrevision o r ++ w_xrevisions (o + zlen (w_xrevision o r)) rs2 /\
  L2 = x_layout (o + zlen (w_xrevision o r)) (Some (w_stream_at o r)) rs2 /\ o = off + zlen a /\
  (L1 = [] /\ a = [] /\ rs1 = [] /\ q = prev \/ exists a' L1' y, a = a' ++ [x0a] /\ rs1 <> [] /\ L1 = L1' ++ [y] /\ q = Some (s_pos y)).
Proof.
  induction rs as [| r0 rs IH]; intros off prev L1 o q r L2 H; [destruct L1; discriminate H |]. cbn [x_layout] in H. destruct L1 as [| x L1].
  - cbn [app] in H. injection H as <- <- <- <-. exists [], rs, []. split; [reflexivity |]. split; [reflexivity |]. split; [reflexivity |]. split; [cbn; lia |]. left. auto.
  - cbn [app] in H. injection H as <- H. destruct (IH _ _ _ _ _ _ _ H) as (rs1 & rs2 & a & -> & QR & QL & QO & CS). exists (r0 :: rs1), rs2, (w_xrevision off r0 ++ a).
    split; [reflexivity |]. split; [cbn [w_xrevisions]; rewrite QR; apps; reflexivity |]. split; [exact QL |]. split; [rewrite zlen_app; lia |]. right.
    destruct CS as [(-> & -> & -> & ->) | (a' & L1' & y & -> & _ & -> & ->)].
    + destruct (xrevision_last off r0) as [b Qb]. exists b, [], (off, prev, r0). split; [rewrite app_nil_r; exact Qb |]. split; [discriminate |]. split; reflexivity.
    + exists (w_xrevision off r0 ++ a'), ((off, prev, r0) :: L1'), y. split; [apps; reflexivity |]. split; [discriminate |]. split; reflexivity.
Qed.
Lemma xlayout_length : forall rs off prev, List.length (x_layout off prev rs) = List.length rs.
Proof. induction rs as [| r rs IH]; intros off prev; cbn; [reflexivity | rewrite IH; reflexivity]. Qed.

(** ** Markers *)
Lemma end_free : forall A R, free_start (w_end A ++ R).
Proof. intros A R b r Q. unfold w_end in Q. cbn [app] in Q. injection Q as <- _. div. Qed.
Lemma xrevs_first : forall E rs off prev, Forall (xlaid_well E) (x_layout off prev rs) -> free_start (w_xrevisions off rs).
Proof.
  intros E [| r0 rs] off prev LW; [discriminate |]. cbn [w_xrevisions x_layout] in *. unfold w_xrevision. rewrite <- app_assoc. inversion LW as [| ? ? PW _]; subst.
  apply objects_start; [exact (all_shape _ _ _ _ (xw_revision _ _ PW)) | apply end_free].
Qed.
Lemma objects_last : forall D1 : list iobj, w_objects D1 = [] \/ exists x, w_objects D1 = x ++ [x0a].
Proof.
  intros D1. destruct D1 as [| x D1 _] using rev_ind; [left; reflexivity |]. right. unfold w_objects. rewrite flat_map_app. cbn [flat_map]. rewrite app_nil_r.
  exists (flat_map w_object D1 ++ w_head x ++ x0a :: w_value x ++ x0a :: lit "endobj"). unfold w_object. apps. reflexivity.
Qed.
Lemma headers_xrevs : forall E rs off prev p w q, Forall (xlaid_well E) (x_layout off prev rs) -> ws_byte w -> w_xrevisions off rs = p ++ w :: lit "obj" ++ q ->
  exists pre o, p = pre ++ dec (inum o) ++ x20 :: dec (igen o) /\ w = x20 /\ In (off + zlen pre, o) (all_raw (x_layout off prev rs)) /\ (pre = [] \/ exists x, pre = x ++ [x0a]).
Proof.
  intros E. induction rs as [| r rs IH]; intros off prev p w q LW W Q; [destruct p; discriminate Q |]. cbn [w_xrevisions x_layout] in *. inversion LW as [| ? ? PW LW']; subst.
  set (R := w_xrevisions _ rs) in *. unfold w_xrevision at 1 in Q. rewrite <- app_assoc in Q. pose proof (xw_revision _ _ PW) as G. cbn [fst snd] in G.
  destruct (headers_in (xv_all r) (w_end (w_stream_at off r) ++ R) p w q (all_shape _ _ _ _ G)) as [(D1 & o & D2 & QD & -> & ->) | (p' & -> & QT)]; [apply end_free | exact W | exact Q | |].
  - exists (w_objects D1), o. split; [reflexivity |]. split; [reflexivity |]. split; [| apply objects_last].
    unfold all_raw. cbn [flat_map]. apply in_or_app. left. unfold raw_places. cbn [fst snd]. apply places_split. exists D1, D2. auto.
  - destruct (calm_skip _ _ p' w q (end_calm _ (s_nonneg off r (xw_off _ _ PW))) (xrevs_first _ _ _ _ LW') W QT) as (p2 & -> & Q2).
    destruct (IH _ _ p2 w q LW' W Q2) as (pre & o & -> & -> & I & PE). exists (w_xrevision off r ++ pre), o.
    split; [unfold w_xrevision; apps; reflexivity |]. split; [reflexivity |]. split.
    + unfold all_raw. cbn [flat_map]. apply in_or_app. right. rewrite zlen_app, Z.add_assoc. exact I.
    + right. destruct PE as [-> | [x ->]]; [rewrite app_nil_r; apply xrevision_last | exists (w_xrevision off r ++ x); apps; reflexivity].
Qed.
Lemma xrevs_tame : forall E rs off prev, Forall (xlaid_well E) (x_layout off prev rs) -> tame (w_xrevisions off rs).
Proof.
  intros E. induction rs as [| r rs IH]; intros off prev LW; [apply tame_no; intros [] |]. cbn [w_xrevisions x_layout] in *. inversion LW as [| ? ? PW LW']; subst.
  set (R := w_xrevisions _ rs). unfold w_xrevision, w_end. set (T := w_stream_at off r).
  replace ((w_objects (xv_all r) ++ x0a :: lit "startxref" ++ x0a :: dec T ++ x0a :: lit "%%EOF" ++ [x0a]) ++ R) with (w_objects (xv_all r) ++ (x0a :: lit "startxref" ++ x0a :: dec T) ++ x0a :: lit "%%EOF" ++ x0a :: R) by (apps; reflexivity).
  apply objects_tame; [exact (all_shape _ _ _ _ (xw_revision _ _ PW)) |]. apply tame_join; [apply tame_no |].
  - pose proof (quiet_nat _ _ (dec_text _ (s_nonneg off r (xw_off _ _ PW)))) as (QN & _ & _). fold T in QN. intros [I | I]; [discriminate I |]. apply in_app_or in I. destruct I as [I | [I | I]]; [vm_compute in I; intuition discriminate | discriminate I | exact (QN I)].
  - apply (tame_join (lit "%%EOF")); [apply tame_free, occurs_check; vm_compute; reflexivity | exact (IH _ _ LW')].
Qed.
Lemma xupdated_tame : forall E rs, lay_xupdates E rs -> tame (w_xupdated rs).
Proof.
  intros E rs GU. unfold w_xupdated, w_version. rewrite <- app_assoc. cbn [app]. apply (tame_join (lit "%PDF-1.7")); [| eapply xrevs_tame, xupdated_laid; exact GU].
  apply tame_free, occurs_check. vm_compute. reflexivity.
Qed.
Lemma xupdated_markers : forall E rs, lay_xupdates E rs -> only_at (w_xupdated rs) (map fst (all_raw (x_layout (zlen w_version) None rs))).
Proof.
  intros E rs GU i (B & t & r & Z0 & M). pose proof (xupdated_laid E rs GU) as LW. set (file := w_xupdated rs) in *. inversion M as [a n s b g s' A S B0 S' QT]; subst t.
  pose proof (ztake_zdrop _ i file (proj1 B)) as F. set (u := ztake i file) in *. rewrite Z0 in F.
  assert (LU : zlen u = i). { assert (zlen (u ++ (a ++ s ++ b ++ s' ++ lit "obj") ++ r) = zlen file) by (rewrite F; reflexivity). rewrite zlen_app, <- Z0, zdrop_len in H by lia. lia. }
  assert (CM : forall x c, s' = x ++ "%"%byte :: c -> In x0a c).
  { intros x c Q. apply (xupdated_tame E rs GU (u ++ a ++ s ++ b ++ x) c r). fold file. rewrite <- F, Q. apps. reflexivity. }
  assert (W3 : exists s2 w, s' = s2 ++ [w] /\ ws_byte w).
  { destruct (sep_tail s' S') as [(s1 & w & Q & W & _) | (x & c & Q & C)]; [eauto | exfalso]. apply (C x0a (CM x c Q)). vm_compute. tauto. }
  destruct W3 as (s2 & w & QS & W3).
  assert (F' : w_version ++ w_xrevisions (zlen w_version) rs = (u ++ a ++ s ++ b ++ s2) ++ w :: lit "obj" ++ r).
  { fold (w_xupdated rs). fold file. rewrite <- F, QS. apps. reflexivity. }
  destruct (calm_skip w_version _ _ w _ ltac:(apply (calmb_ok _ false); reflexivity) (xrevs_first _ _ _ _ LW) W3 F') as (p' & Q1 & Q2).
  destruct (headers_xrevs E rs _ _ p' w _ LW W3 Q2) as (pre & o & -> & -> & I & PE).
  assert (Go : lay_shape o).
  { unfold all_raw in I. apply in_flat_map in I. destruct I as (x & Ix & I). rewrite Forall_forall in LW. apply (all_shape _ _ _ _ (xw_revision _ _ (LW x Ix))). exact (places_in _ _ _ _ I). }
  destruct Go as [N1 N2 _ _].
  assert (PE' : w_version ++ pre = [] \/ exists x, w_version ++ pre = x ++ [x0a]).
  { right. destruct PE as [-> | [x ->]]; [exists (lit "%PDF-1.7"); rewrite app_nil_r; reflexivity | exists (w_version ++ x); apps; reflexivity]. }
  assert (EQ : u ++ a ++ s ++ b ++ s' = (w_version ++ pre) ++ dec (inum o) ++ x20 :: dec (igen o) ++ [x20]).
  { rewrite QS. replace (u ++ a ++ s ++ b ++ s2 ++ [x20]) with ((u ++ a ++ s ++ b ++ s2) ++ [x20]) by (apps; reflexivity). rewrite Q1. apps. reflexivity. }
  destruct (white_seps u a n s b g s' (w_version ++ pre) (inum o) (igen o) A S B0 S' ltac:(lia) ltac:(lia) PE' CM EQ) as [W1 W2].
  destruct (header_back u a n s b g s' (w_version ++ pre) (inum o) (igen o) A W1 B0 W2 ltac:(lia) ltac:(lia)) as (x & X1 & X2); [| exact EQ |].
  { intros c r0 Q. destruct PE' as [Q' | [x Q']]; rewrite Q' in Q; [destruct r0; discriminate Q |]. apply app_inj_tail in Q. destruct Q as [_ <-]. reflexivity. }
  exists (zlen (w_version ++ pre)). assert (QI : i = zlen (w_version ++ pre) + zlen x) by (rewrite <- LU, X2, zlen_app; reflexivity).
  split; [| split].
  - apply in_map_iff. exists (zlen w_version + zlen pre, o). split; [rewrite zlen_app; reflexivity | exact I].
  - pose proof (zlen_nonneg _ x). lia.
  - intros m Bm. destruct (zdrop_in file (zlen (w_version ++ pre)) x ((a ++ s ++ b ++ s' ++ lit "obj") ++ r) m) as (c & q & Zc & Ic).
    + apply zlen_nonneg.
    + rewrite <- F, X2. rewrite <- app_assoc. apply zdrop_app.
    + lia.
    + destruct (isdigit_dec c) as [d Dd]; [apply (dec_isdigit (inum o) ltac:(lia)); rewrite X1; apply in_or_app; left; exact Ic |]. exists c, q, d. auto.
Qed.
(** ** The objects *)
Lemma xu_split : forall rs x k o, In x (x_layout (zlen w_version) None rs) -> In (k, o) (raw_places x) -> exists pre r, w_xupdated rs = (pre ++ [x0a]) ++ w_object o ++ r /\ k = zlen (pre ++ [x0a]).
Proof.
  intros rs [[off q] r] k o Ix I. apply in_split in Ix. destruct Ix as (L1 & L2 & QL). destruct (xlayout_split _ _ _ _ _ _ _ _ QL) as (rs1 & rs2 & a & _ & QR & _ & QO & CS). set (R := w_xrevisions _ rs2) in QR.
  unfold raw_places in I. cbn [fst snd] in I. apply places_split in I. destruct I as (D1 & D2 & QD & ->).
  assert (QE : exists x, w_version ++ a ++ w_objects D1 = x ++ [x0a]).
  { destruct (objects_last D1) as [-> | [x ->]]; [| exists (w_version ++ a ++ x); apps; reflexivity]. rewrite app_nil_r.
    destruct CS as [(_ & -> & _) | (a' & L1' & y & -> & _)]; [exists (lit "%PDF-1.7"); rewrite app_nil_r; reflexivity | exists (w_version ++ a'); apps; reflexivity]. }
  destruct QE as [x QX]. exists x, (w_objects D2 ++ w_end (w_stream_at off r) ++ R). rewrite <- QX. split.
  - unfold w_xupdated. rewrite QR. unfold w_xrevision. rewrite QD. unfold w_objects at 1. rewrite flat_map_app. cbn [flat_map]. apps. reflexivity.
  - rewrite !zlen_app. lia.
Qed.
Lemma raw_are : forall x, raw_places x = w_places (fst (fst x)) (xv_objects (snd x)) ++ [(s_pos x, xv_stream (snd x))].
Proof. intros x. unfold raw_places, xv_all. rewrite places_app. cbn [w_places]. reflexivity. Qed.
