(** RecoverP.v -- loading a file without cross-reference data. *)
From Verif Require Import Base BaseP Msg Reader ReaderP Num Lexer LexerP Obj ReadObj Env Getters Crypt GetObj GetObjP Regex Xref Load SpecLex SpecLexP SpecObj SpecObjP
  SpecNumP SpecRead SpecFetch SpecLook SpecStream SpecScan RegexP ScanP StreamP StreamObjP CryptObjP ReadP RepairP FetchP SpecOut SpecRecover.
From Coq Require Import Strings.String Sorting.Permutation Sorting.Sorted.

Lemma white_sep : forall s, white s -> sep s.
Proof.
  intros s [N W]. induction s as [| b s IH]; [contradiction |]. destruct s as [| c s]; [apply sep_ws, W; left; reflexivity |].
  apply (sep_app [b] (c :: s)); [apply sep_ws, W; left; reflexivity |]. apply IH; [discriminate |]. intros x I. apply W. right; exact I.
Qed.
Lemma white_gap : forall s, white s -> gap s.
Proof. intros s [_ W]. induction s as [| b s IH]; [constructor |]. apply gap_ws; [apply W; left; reflexivity |]. apply IH. intros x I. apply W. right; exact I. Qed.
Lemma header_marker : forall h n g, header h n g -> obj_marker h.
Proof. intros h n g H. inversion H; subst. eapply om_intro; eauto using white_sep. Qed.
Lemma header_head : forall h n g, header h n g -> object_head h n g.
Proof. intros h n g H. inversion H as [a n' s b g' s' A S B S']; subst. apply (oh_intro [] a n s b g s'); auto using gap_nil, white_gap. apply S. Qed.
Lemma white_first : forall s r, white s -> no_digit (s ++ r).
Proof. intros s r W. apply sep_nd. apply white_sep. exact W. Qed.

(** sep in front of what is neither white space nor a comment *)
Lemma sep_before : forall s, sep s -> forall w c x y, is_ws c = false -> c <> "%"%byte -> (forall b, In b w -> ws_byte b) -> w ++ c :: x = s ++ y ->
  exists w', (forall b, In b w' -> ws_byte b) /\ y = w' ++ c :: x.
Proof.
  intros s H. induction H as [b W | d C | s t S IS T IT]; intros w c x y NW NC A E.
  - destruct w as [| c' w]; cbn [app] in E.
    + assert (b = c) by congruence. subst b. apply is_ws_spec in W. congruence.
    + exists w. split; [intros b' I; apply A; right; assumption | congruence].
  - exfalso. destruct w as [| b w]; cbn [app] in E; [congruence |]. assert (b = "%"%byte) by congruence. subst b.
    assert (X := A "%"%byte (or_introl eq_refl)). apply is_ws_spec in X. discriminate.
  - rewrite <- app_assoc in E. destruct (IS w c x (t ++ y) NW NC A E) as (w' & A' & E'). symmetry in E'. exact (IT w' c x y NW NC A' E').
Qed.
Lemma sep_white : forall s w c x c' y, sep s -> white w -> is_ws c = false -> c <> "%"%byte -> is_ws c' = false -> w ++ c :: x = s ++ c' :: y -> c :: x = c' :: y.
Proof.
  intros s w c x c' y S [_ W] N1 N2 N3 E. destruct (sep_before s S w c x (c' :: y) N1 N2 W E) as (w' & A & Q).
  destruct w' as [| b w']; [symmetry; exact Q |]. exfalso. cbn [app] in Q. assert (b = c') by congruence. subst b. pose proof (A c' (or_introl eq_refl)) as X. apply is_ws_spec in X. congruence.
Qed.
Lemma nat_first : forall t n, nat_text t n -> exists b r, t = b :: r /\ is_ws b = false /\ b <> "%"%byte.
Proof.
  intros t n H. pose proof (nat_text_digits _ _ H) as D. destruct t as [| b t]; [destruct H as (ds & A & B & _); inversion A; congruence |].
  exists b, t. split; [reflexivity |]. specialize (D b (or_introl eq_refl)). split; [destruct b; try reflexivity; discriminate | intros ->; discriminate].
Qed.
(** A marker where a header is, is the header. *)
Lemma marker_header : forall h n g t r r', header h n g -> obj_marker t -> h ++ r = t ++ r' -> t = h.
Proof.
  intros h n g t r r' H M E. inversion H as [a n' s b g' s' A S B S']; subst. inversion M as [a2 n2 s2 b2 g2 s2' A2 S2 B2 S2']; subst.
  repeat rewrite <- app_assoc in E.
  destruct (digits_split_det a a2 _ _ (nat_text_digits _ _ A) (nat_text_digits _ _ A2) (white_first s _ S) (sep_nd s2 _ S2) E) as [Q1 E1]. subst a2.
  destruct (nat_first _ _ B) as (c & q & -> & NW & NP). destruct (nat_first _ _ B2) as (c2 & q2 & -> & NW2 & _).
  pose proof (sep_white s2 s c (q ++ s' ++ lit "obj" ++ r) c2 (q2 ++ s2' ++ lit "obj" ++ r') S2 S NW NP NW2 E1) as E2.
  assert (s = s2) as <-. { change (c2 :: q2) with ([c2] ++ q2) in E1. cbn [app] in E1. rewrite E2 in E1. apply app_inv_tail in E1. exact E1. }
  destruct (digits_split_det (c :: q) (c2 :: q2) _ _ (nat_text_digits _ _ B) (nat_text_digits _ _ B2) (white_first s' _ S') (sep_nd s2' _ S2') E2) as [Q3 E3].
  rewrite <- Q3.
  assert (E4 : "o"%byte :: lit "bj" ++ r = "o"%byte :: lit "bj" ++ r') by (apply (sep_white s2' s' "o"%byte (lit "bj" ++ r) "o"%byte (lit "bj" ++ r') S2' S'); [reflexivity | discriminate | reflexivity | exact E3]).
  assert (s' = s2') as <-. { change (lit "obj" ++ r) with ("o"%byte :: lit "bj" ++ r) in E3. change (lit "obj" ++ r') with ("o"%byte :: lit "bj" ++ r') in E3. rewrite E4 in E3. apply app_inv_tail in E3. exact E3. }
  reflexivity.
Qed.
Lemma header_no_comment : forall h n g, header h n g -> ~ In "%"%byte h.
Proof.
  intros h n g H I. inversion H as [a n' s b g' s' A [_ S] B [_ S']]; subst. repeat (apply in_app_or in I; destruct I as [I | I]).
  - apply (nat_text_digits _ _ A) in I. discriminate.
  - apply S, is_ws_spec in I. discriminate.
  - apply (nat_text_digits _ _ B) in I. discriminate.
  - apply S', is_ws_spec in I. discriminate.
  - cbn in I. intuition discriminate.
Qed.

(** ** The scan finds the objects *)
Lemma scan_apart : forall P file off l, scan P file off l -> forall i j i' j', In (i, j) l -> In (i', j') l -> i' < i -> j' <= i.
Proof.
  intros P file off l H. induction H as [off N | off i0 j0 l B S N H IH]; intros i j i' j' I I' L; [destruct I |]. destruct I as [I | I]; destruct I' as [I' | I'].
  - assert (i = i') by congruence. lia.
  - assert (i0 = i) by congruence. subst. destruct (scan_starts _ _ _ _ _ _ H I') as [_ X]. destruct S as (_ & t & r & _ & _ & ->). pose proof (zlen_nonneg _ t). lia.
  - assert (j0 = j') by congruence. subst. destruct (scan_starts _ _ _ _ _ _ H I) as [_ X]. exact X.
  - eapply IH; eassumption.
Qed.
Lemma scan_spans : forall P file off l, scan P file off l -> forall i j, In (i, j) l -> spans P file i j.
Proof. intros P file off l H. induction H as [off N | off i0 j0 l B S N H IH]; intros i j I; [destruct I |]. destruct I as [I | I]; [congruence | apply IH; exact I]. Qed.
Lemma zdrop_in : forall (file : bytes) i t r m, 0 <= i -> zdrop i file = t ++ r -> i <= m < i + zlen t -> exists b q, zdrop m file = b :: q /\ In b t.
Proof.
  intros file i t r m L E B. replace m with (i + (m - i)) by lia. rewrite <- zdrop_zdrop by lia. rewrite E.
  rewrite zdrop_skipn by lia. assert (K : (Z.to_nat (m - i) < List.length t)%nat) by (unfold zlen in B; lia).
  rewrite skipn_app. destruct (skipn (Z.to_nat (m - i)) t) as [| b q] eqn:Q.
  - apply (f_equal (@List.length byte)) in Q. rewrite skipn_length in Q. cbn in Q. lia.
  - exists b, (q ++ skipn (Z.to_nat (m - i) - List.length t) r). split; [reflexivity |]. rewrite <- (firstn_skipn (Z.to_nat (m - i)) t), Q. apply in_or_app. right; left; reflexivity.
Qed.
Lemma scan_headers : forall file is l, (forall k, In k is -> exists n, header_at file k n) -> only_at file is -> scan obj_marker file 0 l -> forall i, In i (map fst l) <-> In i is.
Proof.
  intros file is l OA ON SC.
  assert (ST : forall k, In k is -> exists h n g r, starts obj_marker file k /\ zdrop k file = h ++ r /\ header h n g /\ 0 <= k /\ (forall b r d, 0 < k -> zdrop (k - 1) file = b :: r -> ~ decdigit b d)).
  { intros k I. destruct (OA _ I) as (n & O1 & _ & O2 & h & g & r & Z0 & H).
    exists h, n, g, r. split; [| auto]. split; [| exists h, r; split; [exact Z0 | eapply header_marker; exact H]].
    split; [exact O1 |]. destruct (Z.le_gt_cases k (zlen file)) as [L | L]; [exact L |]. exfalso. pose proof (zdrop_len _ k file O1) as LN. rewrite Z0, zlen_app in LN.
    pose proof (marker_len _ (header_marker _ _ _ H)). pose proof (zlen_nonneg _ r). lia. }
  assert (FW : forall i, In i (map fst l) -> In i is).
  { intros i I. apply in_map_iff in I. destruct I as ([i' j] & Q & I). cbn in Q. subst i'. destruct (scan_starts _ _ _ _ _ _ SC I) as [S0 _].
    destruct (ON i S0) as (k & Ik & L & D). destruct (Z.eq_dec k i) as [<- | NE]; [exact Ik |]. exfalso.
    destruct (ST k Ik) as (h & n & g & r & Sk & _ & _ & Lk & _). destruct (scan_covers _ _ _ _ marker_len SC k Lk Sk) as (i' & j' & I' & SP & B).
    assert (J : j' <= i) by (eapply scan_apart; [exact SC | exact I | exact I' | lia]).
    destruct SP as (_ & t & r' & Z0 & M & ->). destruct (D (i' + zlen t - 1)) as (b & q & d & Zb & Db); [lia |].
    inversion M as [a n0 s b0 g0 s' A S B0 S']; subst t. set (u := a ++ s ++ b0 ++ s' ++ lit "ob"). replace (a ++ s ++ b0 ++ s' ++ lit "obj") with (u ++ lit "j") in * by (unfold u; repeat rewrite <- app_assoc; reflexivity).
    destruct (zdrop_in file (i' + zlen u) (lit "j") r' (i' + zlen (u ++ lit "j") - 1)) as (b' & q' & Zb' & [<- | []]).
    { pose proof (zlen_nonneg _ u). destruct (scan_starts _ _ _ _ _ _ SC I'). lia. }
    { destruct (scan_starts _ _ _ _ _ _ SC I'). pose proof (zlen_nonneg _ u). rewrite <- zdrop_zdrop by lia. rewrite Z0, <- app_assoc. apply zdrop_app. }
    { rewrite zlen_app. change (zlen (lit "j")) with 1. lia. }
    rewrite Zb in Zb'. injection Zb' as -> _. apply decdigit_spec in Db. destruct Db. discriminate. }
  intros i. split; [apply FW |]. intros I. destruct (ST i I) as (h & n & g & r & Sk & _ & _ & Lk & ND).
  destruct (scan_complete file l i SC Sk) as (i' & j & I' & B & C). destruct (Z.eq_dec i' i) as [<- | NE]; [apply in_map_iff; exists (i', j); auto |]. exfalso.
  pose proof (FW i' ltac:(apply in_map_iff; exists (i', j); auto)) as Io. destruct (ST i' Io) as (h' & n' & g' & r' & Sk' & Z' & H' & Lk' & _).
  destruct C as [C | (m & q & Bm & Zm)].
  - destruct (C (i - 1)) as (b & q & d & Zb & D); [lia |]. apply (ND b q d ltac:(lia) Zb). exact D.
  - pose proof (scan_spans _ _ _ _ SC _ _ I') as (_ & t & r2 & Z2 & M & ->). rewrite Z' in Z2. pose proof (marker_header _ _ _ _ _ _ H' M Z2). subst t.
    destruct (zdrop_in file i' h' r' m Lk' Z' Bm) as (b & q' & Zb & Ib). rewrite Zm in Zb. injection Zb as <- _. exact (header_no_comment _ _ _ H' Ib).
Qed.

Lemma object_header_at : forall E file i o, object_at E file i o -> header_at file i (inum o).
Proof. intros E file i o [O1 O2 O3 O4 (h & r & Z0 & H & _) _]. split; [exact O1 |]. split; [exact O2 |]. split; [exact O4 |]. exists h, (igen o), r. auto. Qed.
(** ** Loading *)
Lemma no_xref_offsets : forall file, ~ occurs (lit "xref") file -> find_xref_offsets file = [] /\ start_xref_offset file = None.
Proof.
  intros file NO. split.
  - destruct (find_xref_offsets file) as [| i l] eqn:Q; [reflexivity |]. exfalso. destruct (proj1 (proj2 (xref_positions file) i)) as (B & t & r & Z0 & ->); [rewrite Q; left; reflexivity |].
    apply NO. exists (ztake i file), r. rewrite <- Z0. rewrite ztake_firstn, zdrop_skipn by lia. symmetry. apply firstn_skipn.
  - destruct (start_xref_offset file) as [n |] eqn:Q; [| reflexivity]. exfalso. apply start_offset in Q. destruct Q as [(a & m & b & E & T & _) _].
    inversion T as [w1 d n' w2 A D B]; subst. apply NO. exists (firstn (List.length file - 256) file ++ a ++ lit "start"), (w1 ++ d ++ w2 ++ lit "%%EOF" ++ b).
    rewrite <- (firstn_skipn (List.length file - 256) file) at 1. change (skipn (List.length file - 256) file) with (last256 file). rewrite E.
    change (lit "startxref") with (lit "start" ++ lit "xref"). repeat rewrite <- app_assoc. reflexivity.
Qed.
Lemma number_of : forall file i a r n, zdrop i file = a ++ r -> nat_text a n -> no_digit r -> number_at file i n.
Proof. intros file i a r n Z0 N D. exists a, r. split; [exact Z0 |]. split; [exact N |]. apply nd_decdigit. exact D. Qed.
Lemma header_number_at : forall file i h n g r, zdrop i file = h ++ r -> header h n g -> number_at file i n.
Proof.
  intros file i h n g r Z0 H. inversion H as [a n' s b g' s' A S B S']; subst. repeat rewrite <- app_assoc in Z0. eapply number_of; [exact Z0 | exact A | apply white_first; exact S].
Qed.
Lemma wrap_small : forall n, 0 <= n < 2 ^ 63 -> wrap64 n = n.
Proof. intros n H. unfold wrap64, two63, two64. rewrite Z.mod_small; lia. Qed.

(** the first byte of an object that is not a dictionary *)
Lemma first_byte : forall t o r, obj_text t o -> (forall d, o <> ODict d) -> exists b q, t ++ r = b :: q /\ ~ ws_byte b /\ b <> "%"%byte /\ (forall r', b :: q <> "<"%byte :: "<"%byte :: r').
Proof.
  assert (NW : forall b, is_ws b = false -> ~ ws_byte b) by (intros b H W; apply is_ws_spec in W; congruence).
  assert (DG : forall u n r, nat_text u n -> exists b q, u ++ r = b :: q /\ ~ ws_byte b /\ b <> "%"%byte /\ (forall r', b :: q <> "<"%byte :: "<"%byte :: r')).
  { intros u n r N. pose proof (nat_text_digits _ _ N) as D. destruct (nat_first _ _ N) as (b & q & -> & W & P). exists b, (q ++ r). split; [reflexivity |]. split; [auto |]. split; [exact P |].
    intros r' Q. specialize (D b (or_introl eq_refl)). assert (b = "<"%byte) by congruence. subst. discriminate. }
  intros t o r T ND. inversion T as [t0 z I B Z0 | t0 v SB | t0 ds v HD HP | t0 v NB | t0 KW NR | a n g1 b g g2 A L G1 N1 B0 L2 G2 N2 | t0 l IT | t0 kvs IT N]; subst.
  - inversion I; subst; [eapply DG; eassumption | |]; (eexists; eexists; split; [reflexivity |]; split; [apply NW; reflexivity |]; split; [discriminate | intros r' Q; discriminate]).
  - eexists; eexists; split; [reflexivity |]; split; [apply NW; reflexivity |]; split; [discriminate | intros r' Q; discriminate].
  - eexists; eexists; split; [reflexivity |]; split; [apply NW; reflexivity |]; split; [discriminate |]. intros r' Q. cbn [app] in Q. injection Q as Q.
    inversion HD as [| b u ds' k W HD' | b u ds' k | b x u ds' k HX HD']; subst; cbn [app] in Q; try discriminate.
    + injection Q as -> _. apply is_ws_spec in W. discriminate.
    + injection Q as -> _. destruct HX as [HX | HX]; apply nth_error_In in HX; cbn in HX; intuition discriminate.
  - eexists; eexists; split; [reflexivity |]; split; [apply NW; reflexivity |]; split; [discriminate | intros r' Q; discriminate].
  - destruct KW as (b & q & -> & R & _). exists b, (q ++ r). destruct (R b (or_introl eq_refl)) as [R1 R2]. split; [reflexivity |]. split; [exact R1 |].
    split; [intros -> | intros r' Q; assert (b = "<"%byte) by congruence; subst]; apply R2; cbn; tauto.
  - rewrite <- app_assoc. eapply DG. eassumption.
  - eexists; eexists; split; [reflexivity |]; split; [apply NW; reflexivity |]; split; [discriminate | intros r' Q; discriminate].
  - exfalso. eapply ND. reflexivity.
Qed.

(** The text at [i] starts an object of the numbers [n] and [g] that is not a
    cross-reference stream. *)
Definition listed_at (file : bytes) (i n g : Z) : Prop :=
  0 <= i /\ 0 <= n < 2 ^ 63 /\ 0 <= g < 2 ^ 63 /\ (forall b r d, 0 < i -> zdrop (i - 1) file = b :: r -> ~ decdigit b d) /\
  exists h g1 t v r, zdrop i file = h ++ g1 ++ t ++ r /\ header h n g /\ gap g1 /\ obj_text t v /\ ends_token (g1 ++ t ++ r) /\ zlen (h ++ g1) < bufsize - 1 /\
    forall d, v = ODict d -> entry d (lit "Type") <> Some (OName (lit "XRef")).
Lemma listed_header : forall file i n g, listed_at file i n g -> header_at file i n.
Proof. intros file i n g (L1 & L2 & _ & L4 & h & g1 & t & v & r & Z0 & H & _). split; [exact L1 |]. split; [exact L2 |]. split; [exact L4 |]. eauto. Qed.
Lemma object_listed : forall E file i o, object_at E file i o -> listed_at file i (inum o) (igen o).
Proof.
  intros E file i o [O1 O2 O3 O4 (h & r & Z0 & H & BH) NX]. split; [exact O1 |]. split; [exact O2 |]. split; [exact O3 |]. split; [exact O4 |]. revert Z0 NX.
  inversion BH as [g1 t v g2 r1 G1 T G2 ET MF ER L Q1 Q2 Q3 | g1 t d g2 pre eol data eol' r1 fl pl out G1 T G2 NE ET EB NO EA L FO PO TY CR DC Q1 Q2]; subst; intros Z0 NX.
  - exists h, g1, t, (ival o), (g2 ++ lit "endobj" ++ r1). auto 10.
  - exists h, g1, t, (ODict d), (g2 ++ lit "stream" ++ pre ++ eol ++ data ++ eol' ++ lit "endstream" ++ r1). split; [exact Z0 |]. split; [exact H |]. split; [exact G1 |]. split; [exact T |].
    split; [eapply dict_ends; eauto |]. split; [| exact NX].
    repeat rewrite zlen_app in *. pose proof (zlen_nonneg _ t). pose proof (zlen_nonneg _ g2). pose proof (zlen_nonneg _ pre). pose proof (zlen_nonneg _ eol). change (zlen (lit "stream")) with 6 in L. unfold bufsize in *; lia.
Qed.
Lemma dict_or_not : forall v : obj, (exists d, v = ODict d) \/ forall d, v <> ODict d.
Proof. intros v. destruct v; eauto; right; discriminate. Qed.
Lemma head_mod : forall x : bytes, zlen x < bufsize - 1 -> zlen x mod bufsize <> bufsize - 1.
Proof. intros x L. pose proof (zlen_nonneg _ x). rewrite Z.mod_small; unfold bufsize in *; lia. Qed.
Lemma listed_entry : forall file i m e n g, listed_at file i n g -> marker_entry file i m e -> m = n /\ e = new_xentry i g 1.
Proof.
  intros file i m e n g (O1 & O2 & O3 & _ & h & g1 & t & v & r & Z0 & H & G1 & T & ET & L & NX) [M1 M2 M3 M4 M5 M6 M7]. pose proof (header_head _ _ _ H) as HH.
  destruct M1 as (k & K1 & K2). pose proof (number_at_det _ _ _ _ K1 (header_number_at _ _ _ _ _ _ Z0 H)) as K3. rewrite (wrap_small n) in K3 by lia.
  split; [congruence |]. assert (XS : x_stm e = false).
  { destruct (dict_or_not v) as [[d QD] | ND].
    - subst v. destruct (x_stm e) eqn:XS; [| reflexivity]. exfalso. apply (NX d eq_refl). eapply M6; [exact Z0 | exact HH | exact G1 | exact T | apply head_mod; exact L | reflexivity].
    - destruct (first_byte t v r T ND) as (b & q & Q & F1 & F2 & F3). rewrite Q in *. eapply M7; eauto. }
  specialize (M5 h n g (g1 ++ t ++ r) Z0 HH ET). rewrite wrap_small in M5 by lia. rewrite XS in M4. destruct e as [a b c d f]. cbn in *. subst. reflexivity.
Qed.
(** The same for any object [v]. *)
Definition headed_at (file : bytes) (i n g : Z) (v : obj) : Prop :=
  0 <= i /\ 0 <= n < 2 ^ 63 /\ 0 <= g < 2 ^ 63 /\ (forall b r d, 0 < i -> zdrop (i - 1) file = b :: r -> ~ decdigit b d) /\
  exists h g1 t r, zdrop i file = h ++ g1 ++ t ++ r /\ header h n g /\ gap g1 /\ obj_text t v /\ ends_token (g1 ++ t ++ r) /\ zlen (h ++ g1) < bufsize - 1.
Lemma listed_headed : forall file i n g, listed_at file i n g -> exists v, headed_at file i n g v.
Proof. intros file i n g (O1 & O2 & O3 & O4 & h & g1 & t & v & r & Z0 & H & G1 & T & ET & L & NX). exists v. unfold headed_at. eauto 20. Qed.
Lemma headed_header : forall file i n g v, headed_at file i n g v -> header_at file i n.
Proof. intros file i n g v (L1 & L2 & _ & L4 & h & g1 & t & r & Z0 & H & _). split; [exact L1 |]. split; [exact L2 |]. split; [exact L4 |]. eauto. Qed.
Lemma headed_stream : forall file i m e n g d, headed_at file i n g (ODict d) -> entry d (lit "Type") = Some (OName (lit "XRef")) -> marker_entry file i m e ->
  m = n /\ e = {| x_off := i; x_gen := g; x_type := 1; x_enc := false; x_stm := true |}.
Proof.
  intros file i m e n g d (O1 & O2 & O3 & _ & h & g1 & t & r & Z0 & H & G1 & T & ET & L) TX [M1 M2 M3 M4 M5 M6 M7]. pose proof (header_head _ _ _ H) as HH.
  destruct M1 as (k & K1 & K2). pose proof (number_at_det _ _ _ _ K1 (header_number_at _ _ _ _ _ _ Z0 H)) as K3. rewrite (wrap_small n) in K3 by lia.
  split; [congruence |]. assert (XS : x_stm e = true) by (eapply M6; [exact Z0 | exact HH | exact G1 | exact T | apply head_mod; exact L | exact TX]).
  specialize (M5 h n g (g1 ++ t ++ r) Z0 HH ET). rewrite wrap_small in M5 by lia. rewrite XS in M4. destruct e as [a b c f x]. cbn in *. subst. reflexivity.
Qed.
Lemma headed_silent : forall file i n g v, headed_at file i n g v -> silent_at file i.
Proof.
  intros file i n g v (_ & _ & _ & _ & h & g1 & t & r & Z0 & H & G1 & T & ET & L). exists h, n, g, g1, (t ++ r). split; [exact Z0 |]. split; [exact (header_head _ _ _ H) |]. split; [exact G1 |]. split; [exact ET |].
  destruct (dict_or_not v) as [[d QD] | ND].
  - left. subst v. exists t, d, r. split; [reflexivity |]. split; [exact T | apply head_mod; exact L].
  - right. destruct (first_byte t v r T ND) as (b & q & Q & F). exists b, q. auto.
Qed.
Lemma listed_silent : forall file i n g, listed_at file i n g -> silent_at file i.
Proof. intros file i n g L. destruct (listed_headed _ _ _ _ L) as (v & H). exact (headed_silent _ _ _ _ _ H). Qed.
Lemma entry_of_object : forall E file i n e o, object_at E file i o -> marker_entry file i n e -> n = inum o /\ e = new_xentry i (igen o) 1.
Proof. intros E file i n e o OA ME. exact (listed_entry file i n e _ _ (object_listed _ _ _ _ OA) ME). Qed.

(** the object, maybe a cross-reference stream *)
Definition readable_at (E : env) (file : bytes) (i : Z) (o : iobj) : Prop := 0 <= i /\ 0 <= inum o < 2 ^ 63 /\ 0 <= igen o < 2 ^ 63 /\
  exists h r, zdrop i file = h ++ r /\ header h (inum o) (igen o) /\ behind E h r (ival o) (istream o).
Lemma object_readable : forall E file i o, object_at E file i o -> readable_at E file i o.
Proof. intros E file i o [O1 O2 O3 _ T _]. split; [exact O1 |]. split; [exact O2 |]. split; [exact O3 | exact T]. Qed.
Lemma fetch_readable : forall E file i o p e, readable_at E file i o -> reads file p -> psh p = new_sechandler -> xget (inum o) (pxref p) = Some e ->
  x_off e = i -> x_gen e = igen o -> x_type e = 1 -> exists f p', GetObject f E file (inum o) p = Ok (o, p') /\ log (prd p') = log (prd p).
Proof.
  intros E file i o p e (O1 & O2 & O3 & h & r & Z0 & H & BH) R SH X XO XG XT. subst i. pose proof (header_head _ _ _ H) as HH.
  destruct o as [n g v s]. cbn [igen] in XG. subst g. cbn [inum igen ival istream] in *.
  inversion BH as [g1 t v' g2 r1 G1 T G2 ET MF ER L Q1 Q2 Q3 | g1 t d g2 pre eol data eol' r1 fl pl out G1 T G2 NE ET EB NO EA L FO PO TY CR DC Q1 Q2]; subst.
  - destruct (plain_object E file p n e h n (x_gen e) g1 t v g2 r1 (fun s => s)) with (fuel := 0%nat) as (p' & Q & LG); try assumption; try reflexivity.
    { intros s. rewrite SH. destruct (x_enc e); reflexivity. }
    rewrite map_strings_id in Q. exists 1%nat, p'. split; [exact Q | exact LG].
  - assert (DF : default_crypt (psh p) d CFNone).
    { rewrite SH. destruct (entry d (lit "Type")) as [x |] eqn:ET0.
      - assert (K : key_of (lit "Type") d (Some x)).
        { clear - ET0. induction d as [| [k y] d IH]; [discriminate |]. cbn [entry] in ET0. destruct (list_eq_dec Byte.byte_eq_dec (lit "Type") k) as [<- | NK].
          - injection ET0 as ->. exists [], d. split; [reflexivity | intros []].
          - destruct (IH ET0) as (d1 & d2 & -> & NI). exists ((k, y) :: d1), d2. split; [reflexivity |]. intros [Q | Q]; [apply NK; symmetry; exact Q | exact (NI Q)]. }
        assert (C : x = OName (lit "EmbeddedFile") \/ x <> OName (lit "EmbeddedFile")).
        { destruct x as [| | w | | | |]; try (right; discriminate). destruct (list_eq_dec Byte.byte_eq_dec w (lit "EmbeddedFile")) as [-> | N]; [left; reflexivity | right; intros Q; injection Q as Q; exact (N Q)]. }
        destruct C as [-> | N]; [exact (df_file new_sechandler d K) |]. apply (df_stream new_sechandler d (Some x)); [exact K | intros o Q; injection Q as <-; apply TY; exact K | intros Q; injection Q as Q; exact (N Q)].
      - apply (df_stream new_sechandler d None); [| discriminate | discriminate]. clear - ET0. cbn [key_of]. induction d as [| [k y] d IH]; [intros [] |]. cbn [entry] in ET0.
        destruct (list_eq_dec Byte.byte_eq_dec (lit "Type") k) as [Q | NK]; [discriminate |]. intros [Q | Q]; [apply NK; symmetry; exact Q | exact (IH ET0 Q)]. }
    destruct (stream_object E file p n e h n (x_gen e) g1 t d d g2 pre eol data eol' r1 (fun s => s) data fl pl CFNone fl pl s) as (f0 & F); try assumption; try reflexivity.
    { intros s0. rewrite SH. destruct (x_enc e); reflexivity. }
    { apply map_strings_id. }
    { destruct (x_enc e); [apply sc_default; assumption | apply sc_plain]. }
    destruct (F f0 (le_n _)) as (p' & Q & LG). exists f0, p'. split; [exact Q | exact LG].
Qed.
Lemma fetch_silent : forall E file i o p e, object_at E file i o -> reads file p -> psh p = new_sechandler -> xget (inum o) (pxref p) = Some e ->
  x_off e = i -> x_gen e = igen o -> x_type e = 1 -> exists f p', GetObject f E file (inum o) p = Ok (o, p') /\ log (prd p') = log (prd p).
Proof. intros E file i o p e OA. exact (fetch_readable E file i o p e (object_readable E file i o OA)). Qed.
Lemma fetch_object : forall E file i o p e, object_at E file i o -> reads file p -> psh p = new_sechandler -> xget (inum o) (pxref p) = Some e ->
  x_off e = i -> x_gen e = igen o -> x_type e = 1 -> fetched E file p (inum o) o.
Proof. intros E file i o p e OA R SH X XO XG XT. destruct (fetch_silent E file i o p e OA R SH X XO XG XT) as (f & p' & Q & _). exists f, p'. exact Q. Qed.

Lemma nat_text_fun : forall t n m, nat_text t n -> nat_text t m -> n = m.
Proof.
  intros t n m (ds & A & _ & <-) (ds' & A' & _ & <-). f_equal. clear - A A'. revert ds' A'. induction A as [| b d t ds D A IH]; intros ds' A'; inversion A' as [| b' d' t' ds2 D' A2]; subst; [reflexivity |].
  f_equal; [| apply IH; exact A2]. apply decdigit_spec in D. apply decdigit_spec in D'. lia.
Qed.
Lemma header_gen : forall h n g n' g', header h n g -> header h n' g' -> g = g'.
Proof.
  intros h n g n' g' H H'. inversion H as [a m s b k s' A S B S']; subst. inversion H' as [a2 m2 s2 b2 k2 s2' A2 S2 B2 S2' E]; subst.
  destruct (digits_split_det _ _ _ _ (nat_text_digits _ _ A2) (nat_text_digits _ _ A) (white_first s2 _ S2) (white_first s _ S) E) as [_ E1].
  destruct (nat_first _ _ B) as (c & q & -> & NW & NP). destruct (nat_first _ _ B2) as (c2 & q2 & -> & NW2 & NP2).
  pose proof (sep_white s s2 c2 (q2 ++ s2' ++ lit "obj") c (q ++ s' ++ lit "obj") (white_sep _ S) S2 NW2 NP2 NW E1) as E2.
  destruct (digits_split_det (c2 :: q2) (c :: q) _ _ (nat_text_digits _ _ B2) (nat_text_digits _ _ B) (white_first s2' _ S2') (white_first s' _ S') E2) as [Q _].
  rewrite Q in B2. eapply nat_text_fun; eassumption.
Qed.

(** What is recorded when the objects are the only markers. *)
Definition recorded (objs : list (Z * iobj)) (os : xmap) : Prop := forall n, match xget n os with
  | Some e => exists i o, last_object objs i o /\ inum o = n /\ e = new_xentry i (igen o) 1
  | None => forall i o, In (i, o) objs -> inum o <> n end.
Lemma markers_recorded : forall (ent : Z -> iobj -> xentry) file objs l os, (forall i o, In (i, o) objs -> header_at file i (inum o)) ->
  (forall i o m e, In (i, o) objs -> marker_entry file i m e -> m = inum o /\ e = ent i o) -> only_at file (map fst objs) -> scan obj_marker file 0 l -> records file l os ->
  forall n, match xget n os with
  | Some e => exists i o, last_object objs i o /\ inum o = n /\ e = ent i o
  | None => forall i o, In (i, o) objs -> inum o <> n end.
Proof.
  intros ent file objs l os HA ME0 ON SC RC.
  assert (SO : forall i, In i (map fst l) <-> In i (map fst objs)).
  { apply scan_headers with (file := file); [| exact ON | exact SC]. intros k I. apply in_map_iff in I. destruct I as ([k' o] & Q & I). cbn in Q. subst k'. exists (inum o). apply HA. exact I. }
  intros n. specialize (RC n). destruct (xget n os) as [e |].
    - destruct RC as (l1 & i & j & l2 & QL & ME & LAST). assert (I : In i (map fst objs)) by (apply SO; rewrite QL, map_app; apply in_or_app; right; left; reflexivity).
      apply in_map_iff in I. destruct I as ([i' o] & Q & I). cbn in Q. subst i'. destruct (ME0 _ _ _ _ I ME) as [Q1 Q2]. exists i, o. split; [| auto].
      split; [exact I |]. intros i' o' I' QN. destruct (Z.le_gt_cases i' i) as [LE | GT]; [exact LE |]. exfalso.
      assert (I2 : In i' (map fst l)) by (apply SO; apply in_map_iff; exists (i', o'); auto). apply in_map_iff in I2. destruct I2 as ([i2 j2] & Q & I2). cbn in Q. subst i2.
      destruct (HA _ _ I') as (O1 & O2 & _ & h & g' & r & Z0 & H).
      destruct (scan_sorted _ _ _ _ marker_len SC) as [SS _]. rewrite QL in I2, SS. apply in_app_or in I2. destruct I2 as [I2 | [I2 | I2]].
      + rewrite map_app in SS. cbn [map fst] in SS. clear - SS I2 GT. induction l1 as [| [a b] l1 IH]; [destruct I2 |]. cbn [map app fst] in SS. inversion SS as [| x y S1 F1]; subst.
        destruct I2 as [I2 | I2]; [| exact (IH I2 S1)]. assert (a = i') by congruence. subst a. rewrite Forall_forall in F1. assert (i' < i) by (apply F1; apply in_or_app; right; left; reflexivity). lia.
      + assert (i = i') by congruence. lia.
      + apply (LAST i' j2 (inum o') I2); [eapply header_number_at; [exact Z0 | exact H] |]. rewrite wrap_small by lia. congruence.
    - intros i o I Q. assert (I2 : In i (map fst l)) by (apply SO; apply in_map_iff; exists (i, o); auto). apply in_map_iff in I2. destruct I2 as ([i2 j2] & Q2 & I2). cbn in Q2. subst i2.
      destruct (HA _ _ I) as (O1 & O2 & _ & h & g' & r & Z0 & H). apply (RC i j2 (inum o) I2); [eapply header_number_at; [exact Z0 | exact H] |]. rewrite wrap_small by lia. exact Q.
Qed.
Lemma scan_objects : forall file (objs : list (Z * iobj)) l, (forall i o, In (i, o) objs -> listed_at file i (inum o) (igen o)) -> only_at file (map fst objs) -> scan obj_marker file 0 l ->
  forall i, In i (map fst l) <-> In i (map fst objs).
Proof.
  intros file objs l OA ON SC. apply scan_headers with (file := file); [| exact ON | exact SC]. intros k I. apply in_map_iff in I. destruct I as ([k' o] & Q & I). cbn in Q. subst k'.
  exists (inum o). eapply listed_header. apply OA. exact I.
Qed.
Lemma objects_recorded : forall file objs l os, (forall i o, In (i, o) objs -> listed_at file i (inum o) (igen o)) -> only_at file (map fst objs) ->
  scan obj_marker file 0 l -> records file l os -> recorded objs os.
Proof.
  intros file objs l os OA ON SC RC n. revert n. refine (markers_recorded (fun i o => new_xentry i (igen o) 1) file objs l os _ _ ON SC RC).
  - intros i o I. eapply listed_header, OA, I.
  - intros i o m e I ME. exact (listed_entry _ _ _ _ _ _ (OA _ _ I) ME).
Qed.
Lemma recorded_plain : forall objs os, recorded objs os -> NoDup (map fst os) -> filter (fun kv : Z * xentry => x_stm (snd kv)) os = [].
Proof.
  intros objs os RO ND.
  destruct (filter (fun kv : Z * xentry => x_stm (snd kv)) os) as [| [k e] q] eqn:Q; [reflexivity |]. exfalso.
    assert (I : In (k, e) (filter (fun kv : Z * xentry => x_stm (snd kv)) os)) by (rewrite Q; left; reflexivity). apply filter_In in I. destruct I as [I XS].
    assert (G : xget k os = Some e) by (apply (In_mget Z.eqb Zeqb_ok); assumption). specialize (RO k). rewrite G in RO. destruct RO as (i & o & _ & _ & ->). discriminate.
Qed.

(** All objects are recovered. *)
Lemma recovered : forall E fuel ord file pw objs, (2 <= fuel)%nat -> (forall m, Permutation (ord m) m) -> ~ occurs (lit "xref") file ->
  (forall i o, In (i, o) objs -> object_at E file i o) -> only_at file (map fst objs) ->
  exists p, load fuel E ord file pw (new_parser file) = Ok (None, p) /\ reads file p /\ offsets_ok (pxref p) /\
    (forall i o, last_object objs i o -> fetched E file p (inum o) o) /\ (forall n, in_use p n <-> exists i o, In (i, o) objs /\ inum o = n).
Proof.
  intros E fuel ord file pw objs F P NX OA ON. unfold load, bind.
  destruct (find_objects_records E file (new_parser file) fuel (open_wf file) eq_refl F) as (l & os & p1 & F1 & SC & RC & W1 & X1 & T1 & S1 & ND). rewrite F1.
  assert (LA : forall i o, In (i, o) objs -> listed_at file i (inum o) (igen o)) by (intros i o I; eapply object_listed, OA, I).
  pose proof (scan_objects file objs l LA ON SC) as SO.
  pose proof (objects_recorded file objs l os LA ON SC RC) as RO.
  destruct (no_xref_offsets file NX) as [N1 N2].
  pose proof (recorded_plain objs os RO ND) as NS.
  unfold xref_offsets. rewrite N1, N2, NS. cbn [map app sortZ fold_right load_all]. unfold pseek at 1. unfold ret at 1.
  set (p2 := with_rd (seek file (zlen file) (prd p1)) p1).
  assert (W2 : reads file p2) by (apply sk_nonneg; apply zlen_nonneg).
  destruct (repair_any_order file (ord os) os p2 W2 ND (P os)) as (p4 & F4 & W4 & T4 & S4 & C4 & _). rewrite F4. rewrite T4. cbn [ptrailer with_rd p2]. rewrite T1. cbn [ptrailer new_parser dget mget].
  assert (TB : forall n, xget n (pxref p4) = xget n os).
  { intros n. specialize (C4 n). cbn [pxref p2 with_rd] in C4. rewrite X1 in C4. cbn [xget mget] in C4. destruct (xget n os); exact C4. }
  exists p4. split; [reflexivity |]. split; [exact W4 |]. split; [| split].
  - intros n e H T. rewrite TB in H. specialize (RO n). rewrite H in RO. destruct RO as (i & o & [I _] & _ & ->). cbn. apply (OA _ _ I).
  - intros i o [I LAST]. assert (X : xget (inum o) (pxref p4) = Some (new_xentry i (igen o) 1)); [| eapply fetch_object; [apply OA; exact I | exact W4 | rewrite S4; cbn; rewrite S1; reflexivity | exact X | reflexivity | reflexivity | reflexivity]].
    rewrite TB. specialize (RO (inum o)). destruct (xget (inum o) os) as [e |].
    + destruct RO as (i' & o' & [I' L'] & Q & ->). assert (i' = i) by (pose proof (LAST _ _ I' Q); pose proof (L' _ _ I (eq_sym Q)); lia). subst i'. f_equal. f_equal.
      destruct (OA _ _ I) as [_ B1 B2 _ (h & r & Z0 & H & BH) _]. destruct (OA _ _ I') as [_ B1' B2' _ (h' & r' & Z0' & H' & BH') _].
      rewrite Z0 in Z0'. pose proof (marker_header _ _ _ _ _ _ H (header_marker _ _ _ H') Z0'). subst h'. eapply header_gen; eassumption.
    + exfalso. exact (RO i o I eq_refl).
  - intros n. unfold in_use. rewrite TB. specialize (RO n). destruct (xget n os) as [e |]; split.
    + intros _. destruct RO as (i & o & [I _] & Q & _). eauto.
    + intros _. destruct RO as (i & o & _ & _ & ->). eexists. split; reflexivity.
    + intros (e & Q & _). discriminate.
    + intros (i & o & I & Q). exfalso. exact (RO i o I Q).
Qed.
