(** AgainP.v -- what Load and Parse find in raw.pdf (C120). *)
From Verif Require Import Base BaseP Msg Reader ReaderP Num NumP Lexer Plain LexerP Obj ReadObj Bits Filters Env Getters Crypt GetObj GetObjP Regex Xref Load Extract Output Render Parse
  SpecLex SpecLexP SpecObj SpecObjP SpecNumP SpecRead SpecFetch SpecLook SpecStream SpecScan FetchP LookP RawP SpecOut SpecRaw RawReadP RawReadEx SpecRecover RecoverP SpecWrite WriteP WriteDocP WriteLoadP WriteOutP SpecAgain.
From Coq Require Import Strings.String Sorting.Permutation.

(** ** Numbers *)
Lemma digit_of_digit : forall d c, digit_of d c -> dec_digit d = c.
Proof.
  intros d c [R Q]. apply bv_inj. rewrite Q. assert (K : d = 0 \/ d = 1 \/ d = 2 \/ d = 3 \/ d = 4 \/ d = 5 \/ d = 6 \/ d = 7 \/ d = 8 \/ d = 9) by lia.
  repeat (destruct K as [-> | K]; [reflexivity |]). subst d. reflexivity.
Qed.
Lemma natural_from : forall v t, natural v t -> forall f, (0 < f)%nat -> v < 2 ^ Z.of_nat f -> dec_from f v = t.
Proof.
  intros v t H. induction H as [v c D | v t d c H IH P D]; intros f F L; (destruct f as [| f]; [lia |]); pose proof (proj1 D) as R; cbn [dec_from].
  - replace (v <? 10) with true by (symmetry; apply Z.ltb_lt; lia). rewrite Z.mod_small by lia. cbn [app]. f_equal. apply digit_of_digit. exact D.
  - rewrite Nat2Z.inj_succ, Z.pow_succ_r in L by lia. replace (10 * v + d <? 10) with false by (symmetry; apply Z.ltb_ge; lia).
    replace ((10 * v + d) / 10) with v by (apply (Z.div_unique _ _ _ d); lia). replace ((10 * v + d) mod 10) with d by (apply (Z.mod_unique _ _ v); lia).
    rewrite (IH f); [f_equal; f_equal; apply digit_of_digit; exact D | | lia]. destruct f; [change (2 ^ Z.of_nat 0) with 1 in L |]; lia.
Qed.
Lemma decimal_dec : forall n t, 0 <= n -> decimal n t -> t = dec n.
Proof.
  intros n t P D. inversion D as [v u N | v u N Q]; subst; [| lia]. symmetry. apply (natural_from _ _ N); [lia |].
  rewrite Nat2Z.inj_succ, Z2Nat.id by apply Z.log2_nonneg. destruct (Z.eq_dec n 0) as [-> | NZ]; [reflexivity |]. apply Z.log2_spec. lia.
Qed.
Lemma dec_decimal : forall n, 0 <= n -> decimal n (dec n).
Proof. intros n P. rewrite <- (decimal_dec n _ P (dec_of_Z_decimal n)). apply dec_of_Z_decimal. Qed.

(** ** The text of one object *)
Definition s_part (s : option bytes) (r : bytes) : bytes :=
  match s with Some d => lit "stream" ++ x0a :: d ++ x0a :: lit "endstream" ++ x0a :: r | None => r end.
Definition printed (o : iobj) (v r : bytes) : bytes :=
  dec (inum o) ++ x20 :: dec (igen o) ++ x20 :: lit "obj" ++ x0a :: v ++ x0a :: s_part (istream o) (lit "endobj" ++ x0a :: r).
Lemma printed_text : forall fmt o t, written_object fmt o t -> 0 <= inum o -> 0 <= igen o -> exists v, written fmt (ival o) v /\ forall r, t ++ x0a :: r = printed o v (x0a :: r).
Proof.
  intros fmt o t (tn & tg & v & Dn & Dg & W & ->) Ln Lg. exists v. split; [exact W |]. intros r. rewrite (decimal_dec _ _ Ln Dn), (decimal_dec _ _ Lg Dg). unfold printed.
  destruct (istream o); cbn [SpecOut.stream_text s_part]; apps; reflexivity.
Qed.

(** ** Where "obj" and "xref" occur *)
Lemma skip_no : forall (c : byte) (m u v y r : bytes), ~ In c u -> u ++ v = y ++ (c :: m) ++ r -> exists y', y = u ++ y' /\ v = y' ++ (c :: m) ++ r.
Proof.
  intros c m. induction u as [| a u IH]; intros v y r N Q; [exists y; auto |]. destruct y as [| b y]; cbn [app] in Q; injection Q as -> Q.
  - exfalso. apply N. left. reflexivity.
  - destruct (IH v y r) as (y' & -> & Q'); [intros I; apply N; right; exact I | exact Q |]. exists y'. auto.
Qed.
Lemma skip_line : forall u v y r : bytes, ~ occurs (lit "obj") u -> u ++ x0a :: v = y ++ lit "obj" ++ r -> exists y', y = u ++ x0a :: y' /\ v = y' ++ lit "obj" ++ r.
Proof.
  intros u v y r N Q. destruct (split_two _ _ _ _ _ Q) as [(w & -> & Q1) | (w & -> & Q1)].
  - exfalso. destruct w as [| a [| b [| c w]]]; try discriminate Q1. apply N. exists y, w. cbn in Q1. injection Q1 as <- <- <- _. reflexivity.
  - destruct w as [| a w]; [discriminate Q1 |]. cbn [app] in Q1. injection Q1 as <- ->. exists w. auto.
Qed.
Lemma skip_obj : forall v y r : bytes, lit "obj" ++ v = y ++ lit "obj" ++ r -> y = [] \/ exists y', y = lit "obj" ++ y' /\ v = y' ++ lit "obj" ++ r.
Proof.
  intros v y r Q. destruct y as [| a y]; [left; reflexivity | right]. cbn in Q. injection Q as <- Q.
  destruct (skip_no "o"%byte (lit "bj") (lit "bj") v y r) as (y' & -> & Q'); [cbn; intuition discriminate | exact Q |]. exists y'. auto.
Qed.
Lemma digits_free : forall n c, 0 <= n -> is_digit c = false -> ~ In c (dec n).
Proof. intros n c B D I. apply (dec_isdigit n B) in I. congruence. Qed.
Lemma word_free : ~ occurs (lit "obj") [] /\ ~ occurs (lit "obj") (lit "stream") /\ ~ occurs (lit "obj") (lit "endstream").
Proof. repeat split; intros (a & b & Q); repeat (destruct a as [| ? a]; cbn in Q; [discriminate Q |]; injection Q as _ Q); destruct a; discriminate Q. Qed.
Definition stream_silent (s : option bytes) : Prop := forall d, s = Some d -> silent_text d.
Lemma printed_obj : forall o v R y r, 0 <= inum o -> 0 <= igen o -> silent_text v -> stream_silent (istream o) -> printed o v (x0a :: R) = y ++ lit "obj" ++ r ->
  y = dec (inum o) ++ x20 :: dec (igen o) ++ [x20] \/ (exists z, y = z ++ x0a :: lit "end") \/
  exists y', (forall R', printed o v (x0a :: R') = printed o v [x0a] ++ R') /\ y = printed o v [x0a] ++ y' /\ R = y' ++ lit "obj" ++ r.
Proof.
  intros o v R y r Ln Lg [SV _] SS Q. destruct word_free as (W0 & W1 & W2). unfold printed in Q at 1.
  replace (dec (inum o) ++ x20 :: dec (igen o) ++ x20 :: lit "obj" ++ x0a :: v ++ x0a :: s_part (istream o) (lit "endobj" ++ x0a :: x0a :: R))
    with ((dec (inum o) ++ x20 :: dec (igen o) ++ [x20]) ++ lit "obj" ++ x0a :: v ++ x0a :: s_part (istream o) (lit "endobj" ++ x0a :: x0a :: R)) in Q by (apps; reflexivity).
  apply skip_no in Q; [| intros I; apply in_app_or in I; destruct I as [I | [I | I]]; [revert I; apply digits_free; [exact Ln | reflexivity] | discriminate I |];
    apply in_app_or in I; destruct I as [I | [I | []]]; [revert I; apply digits_free; [exact Lg | reflexivity] | discriminate I]].
  destruct Q as (y1 & -> & Q). apply skip_obj in Q. destruct Q as [-> | (y2 & -> & Q)]; [left; apps; reflexivity | right].
  apply (skip_line []) in Q; [| exact W0]. destruct Q as (y3 & -> & Q). apply skip_line in Q; [| exact SV]. destruct Q as (y4 & -> & Q).
  assert (K : exists x y5, (forall r0, s_part (istream o) r0 = x ++ r0) /\ (x = [] \/ exists x', x = x' ++ [x0a]) /\ y4 = x ++ y5 /\ lit "endobj" ++ x0a :: x0a :: R = y5 ++ lit "obj" ++ r).
  { destruct (istream o) as [d |] eqn:QS; cbn [s_part] in *.
    - destruct (SS d eq_refl) as [SD _]. apply skip_line in Q; [| exact W1]. destruct Q as (y5 & -> & Q). apply skip_line in Q; [| exact SD]. destruct Q as (y6 & -> & Q).
      apply skip_line in Q; [| exact W2]. destruct Q as (y7 & -> & Q). exists (lit "stream" ++ x0a :: d ++ x0a :: lit "endstream" ++ [x0a]), y7.
      split; [intros; apps; reflexivity |]. split; [right; exists (lit "stream" ++ x0a :: d ++ x0a :: lit "endstream"); apps; reflexivity |]. split; [apps; reflexivity | exact Q].
    - exists [], y4. auto. }
  destruct K as (x & y5 & SP & XE & -> & Q5). change (lit "endobj" ++ x0a :: x0a :: R) with (lit "end" ++ lit "obj" ++ x0a :: x0a :: R) in Q5.
  apply skip_no in Q5; [| cbn; intuition discriminate]. destruct Q5 as (y6 & -> & Q5). apply skip_obj in Q5. destruct Q5 as [-> | (y7 & -> & Q5)].
  - left. destruct XE as [-> | (x' & ->)].
    + exists ((dec (inum o) ++ x20 :: dec (igen o) ++ [x20]) ++ lit "obj" ++ x0a :: v). apps. reflexivity.
    + exists ((dec (inum o) ++ x20 :: dec (igen o) ++ [x20]) ++ lit "obj" ++ x0a :: v ++ x0a :: x'). apps. reflexivity.
  - right. apply (skip_line []) in Q5; [| exact W0]. destruct Q5 as (y8 & -> & Q5). apply (skip_line []) in Q5; [| exact W0]. destruct Q5 as (y9 & -> & Q5). exists y9.
    unfold printed. rewrite !SP. split; [intros R'; rewrite !SP; apps; reflexivity |]. split; [apps; reflexivity | exact Q5].
Qed.
Lemma xref_free : ~ occurs (lit "xref") [] /\ ~ occurs (lit "xref") (lit "stream") /\ ~ occurs (lit "xref") (lit "endstream") /\ ~ occurs (lit "xref") (lit "obj") /\ ~ occurs (lit "xref") (lit "endobj").
Proof. repeat split; intros (a & b & Q); repeat (destruct a as [| ? a]; cbn in Q; [discriminate Q |]; injection Q as _ Q); destruct a; discriminate Q. Qed.
Lemma xref_digits : forall n, 0 <= n -> ~ occurs (lit "xref") (dec n).
Proof. intros n B (a & b & Q). apply (digits_free n "x"%byte B eq_refl). rewrite Q. apply in_or_app. right. left. reflexivity. Qed.
Lemma printed_xref : forall o v R, 0 <= inum o -> 0 <= igen o -> silent_text v -> stream_silent (istream o) -> occurs (lit "xref") (printed o v (x0a :: R)) -> occurs (lit "xref") R.
Proof.
  intros o v R Ln Lg [_ SV] SS H. destruct xref_free as (W0 & W1 & W2 & W3 & W4). unfold printed in H.
  assert (ST : forall u v0, occurs (lit "xref") (u ++ x0a :: v0) -> ~ occurs (lit "xref") u -> occurs (lit "xref") v0).
  { intros u v0 O N. apply occurs_split in O; [destruct O; [contradiction | assumption] | cbn; intuition discriminate | discriminate]. }
  assert (ST' : forall u v0, occurs (lit "xref") (u ++ x20 :: v0) -> ~ occurs (lit "xref") u -> occurs (lit "xref") v0).
  { intros u v0 O N. apply occurs_split in O; [destruct O; [contradiction | assumption] | cbn; intuition discriminate | discriminate]. }
  apply ST' in H; [| apply xref_digits; exact Ln]. apply ST' in H; [| apply xref_digits; exact Lg]. apply ST in H; [| exact W3]. apply ST in H; [| exact SV].
  assert (K : occurs (lit "xref") (lit "endobj" ++ x0a :: x0a :: R)).
  { destruct (istream o) as [d |] eqn:QS; cbn [s_part] in H; [| exact H]. apply ST in H; [| exact W1]. apply ST in H; [| exact (proj2 (SS d eq_refl))]. apply ST in H; [exact H | exact W2]. }
  apply ST in K; [| exact W4]. apply (ST []) in K; [exact K | exact W0].
Qed.

(** ** The whole file *)
Definition raw_text (ts : list bytes) : bytes := List.concat (map (fun t => t ++ [x0a]) ts).
Fixpoint starts_of (off : Z) (ts : list bytes) : list Z :=
  match ts with [] => [] | t :: ts' => off :: starts_of (off + zlen (t ++ [x0a])) ts' end.
Lemma raw_cons : forall t ts, raw_text (t :: ts) = t ++ x0a :: raw_text ts.
Proof. intros t ts. unfold raw_text. cbn [map List.concat]. apps. reflexivity. Qed.
Lemma starts_split : forall ts1 t ts2 off, In (off + zlen (raw_text ts1)) (starts_of off (ts1 ++ t :: ts2)).
Proof.
  induction ts1 as [| u ts1 IH]; intros t ts2 off; cbn [app starts_of].
  - left. unfold raw_text. cbn. lia.
  - right. replace (off + zlen (raw_text (u :: ts1))) with (off + zlen (u ++ [x0a]) + zlen (raw_text ts1)); [apply IH |].
    unfold raw_text. cbn [map List.concat]. rewrite !zlen_app. lia.
Qed.
Lemma raw_last : forall ts, raw_text ts = [] \/ exists x, raw_text ts = x ++ [x0a].
Proof.
  intros ts. destruct ts as [| t ts _] using rev_ind; [left; reflexivity | right]. unfold raw_text. rewrite map_app, concat_app. cbn [map List.concat]. rewrite app_nil_r.
  exists (List.concat (map (fun t => t ++ [x0a]) ts) ++ t). apps. reflexivity.
Qed.
Lemma again_silent : forall fmt o, again fmt o -> stream_silent (istream o).
Proof. intros fmt o A d Q. apply (ag_stream _ _ A d Q). Qed.
Lemma raw_obj : forall fmt L ts, Forall2 (written_object fmt) L ts -> Forall (again fmt) L -> forall y r, raw_text ts = y ++ lit "obj" ++ r ->
  (exists ts1 t ts2 o, ts = ts1 ++ t :: ts2 /\ In o L /\ y = raw_text ts1 ++ dec (inum o) ++ x20 :: dec (igen o) ++ [x20]) \/ exists z, y = z ++ x0a :: lit "end".
Proof.
  intros fmt L ts H. induction H as [| o t L ts W H IH]; intros A y r Q; [destruct y; discriminate Q |]. inversion A as [| ? ? Ao AL]; subst.
  rewrite raw_cons in Q. destruct (printed_text _ _ _ W (proj1 (ag_number _ _ Ao)) (proj1 (ag_generation _ _ Ao))) as (v & Wv & PT). rewrite PT in Q.
  destruct (printed_obj _ _ _ _ _ (proj1 (ag_number _ _ Ao)) (proj1 (ag_generation _ _ Ao)) (ag_text _ _ Ao _ Wv) (again_silent _ _ Ao) Q) as [-> | [Z1 | (y' & PR & -> & Q')]].
  - left. exists [], t, ts, o. split; [reflexivity |]. split; [left; reflexivity | reflexivity].
  - right. exact Z1.
  - assert (PE : printed o v [x0a] = t ++ [x0a]) by (symmetry; apply (PT [])). destruct (IH AL y' r Q') as [(ts1 & t' & ts2 & o' & -> & I & ->) | (z & ->)].
    + left. exists (t :: ts1), t', ts2, o'. split; [reflexivity |]. split; [right; exact I |]. rewrite raw_cons, PE. apps. reflexivity.
    + right. exists (printed o v [x0a] ++ z). apps. reflexivity.
Qed.
Lemma raw_xref : forall fmt L ts, Forall2 (written_object fmt) L ts -> Forall (again fmt) L -> ~ occurs (lit "xref") (raw_text ts).
Proof.
  intros fmt L ts H. induction H as [| o t L ts W H IH]; intros A O; [destruct O as (a & b & Q); destruct a; discriminate Q |]. inversion A as [| ? ? Ao AL]; subst.
  rewrite raw_cons in O. destruct (printed_text _ _ _ W (proj1 (ag_number _ _ Ao)) (proj1 (ag_generation _ _ Ao))) as (v & Wv & PT). rewrite PT in O.
  apply (IH AL). eapply printed_xref; [exact (proj1 (ag_number _ _ Ao)) | exact (proj1 (ag_generation _ _ Ao)) | exact (ag_text _ _ Ao _ Wv) | exact (again_silent _ _ Ao) | exact O].
Qed.
Lemma tail_in : forall (z y : bytes) c e, z ++ x0a :: e = y ++ "%"%byte :: c -> ~ In "%"%byte e -> In x0a c.
Proof.
  intros z y c e Q N. destruct (split_two _ _ _ _ _ Q) as [(w & _ & Q1) | (w & _ & Q1)].
  - destruct w as [| a w]; [discriminate Q1 |]. cbn [app] in Q1. injection Q1 as _ ->. apply in_or_app. right. left. reflexivity.
  - exfalso. destruct w as [| a w]; [discriminate Q1 |]. cbn [app] in Q1. injection Q1 as _ ->. apply N. apply in_or_app. right. left. reflexivity.
Qed.
Lemma raw_only : forall fmt L ts, Forall2 (written_object fmt) L ts -> Forall (again fmt) L -> only_at (raw_text ts) (starts_of 0 ts).
Proof.
  intros fmt L ts H A i (B & t & r & Z0 & M). set (file := raw_text ts) in *. inversion M as [a n s b g s' NA SA NB SB QT]; subst t.
  pose proof (ztake_zdrop _ i file (proj1 B)) as F. set (u := ztake i file) in *. rewrite Z0 in F.
  assert (LU : zlen u = i). { assert (HL : zlen (u ++ (a ++ s ++ b ++ s' ++ lit "obj") ++ r) = zlen file) by (rewrite F; reflexivity). rewrite zlen_app, <- Z0, zdrop_len in HL by lia. lia. }
  assert (F' : file = (u ++ a ++ s ++ b ++ s') ++ lit "obj" ++ r) by (rewrite <- F; apps; reflexivity).
  assert (EOL : eol_byte x0a) by (left; reflexivity).
  destruct (raw_obj fmt L ts H A _ _ F') as [(ts1 & t & ts2 & o & QS & I & EQ) | (z & EQ)].
  2:{ exfalso. destruct (sep_tail s' SB) as [(s1 & w & QW & W & _) | (x & c & QC & C)].
    - subst s'. replace (u ++ a ++ s ++ b ++ s1 ++ [w]) with ((u ++ a ++ s ++ b ++ s1) ++ [w]) in EQ by (apps; reflexivity).
      replace (z ++ x0a :: lit "end") with ((z ++ x0a :: lit "en") ++ ["d"%byte]) in EQ by (apps; reflexivity). apply app_inj_tail in EQ. destruct EQ as [_ ->].
      revert W. cbn. intuition discriminate.
    - apply (C x0a); [| exact EOL]. apply (tail_in z (u ++ a ++ s ++ b ++ x) c (lit "end")); [| cbn; intuition discriminate]. rewrite <- EQ, QC. apps. reflexivity. }
  rewrite Forall_forall in A. pose proof (A o I) as Ao. pose proof (proj1 (ag_number _ _ Ao)) as LN. pose proof (proj1 (ag_generation _ _ Ao)) as LG.
  assert (ND : ~ In "%"%byte (dec (inum o) ++ x20 :: dec (igen o) ++ [x20])).
  { intros J. apply in_app_or in J. destruct J as [J | [J | J]]; [revert J; apply digits_free; [exact LN | reflexivity] | discriminate J |].
    apply in_app_or in J. destruct J as [J | [J | []]]; [revert J; apply digits_free; [exact LG | reflexivity] | discriminate J]. }
  assert (CM : forall x c, s' = x ++ "%"%byte :: c -> In x0a c).
  { intros x c Q. destruct (raw_last ts1) as [Q1 | (w & Q1)].
    - exfalso. apply ND. rewrite Q1 in EQ. cbn [app] in EQ. rewrite <- EQ, Q. repeat (apply in_or_app; right). left. reflexivity.
    - apply (tail_in w (u ++ a ++ s ++ b ++ x) c (dec (inum o) ++ x20 :: dec (igen o) ++ [x20])); [| exact ND]. rewrite Q1 in EQ. rewrite Q in EQ. revert EQ. apps. intros EQ. rewrite <- EQ. reflexivity. }
  destruct (white_seps u a n s b g s' (raw_text ts1) (inum o) (igen o) NA SA NB SB LN LG (raw_last ts1) CM EQ) as [W1 W2].
  destruct (header_back u a n s b g s' (raw_text ts1) (inum o) (igen o) NA W1 NB W2 LN LG) as (x & X1 & X2).
  { intros c r0 Q. destruct (raw_last ts1) as [Q1 | (w & Q1)]; [rewrite Q1 in Q; destruct r0; discriminate Q |]. rewrite Q1 in Q. apply app_inj_tail in Q. destruct Q as [_ <-]. reflexivity. }
  { exact EQ. }
  exists (zlen (raw_text ts1)). assert (QI : i = zlen (raw_text ts1) + zlen x) by (rewrite <- LU, X2, zlen_app; reflexivity). split; [| split].
  - rewrite QS. exact (starts_split ts1 t ts2 0).
  - pose proof (zlen_nonneg _ x). lia.
  - intros m Bm. destruct (zdrop_in file (zlen (raw_text ts1)) x ((a ++ s ++ b ++ s' ++ lit "obj") ++ r) m) as (c & q & Zc & Ic).
    + apply zlen_nonneg.
    + rewrite <- F, X2. rewrite <- app_assoc. apply zdrop_app.
    + lia.
    + destruct (isdigit_dec c) as [d Dd]; [apply (dec_isdigit (inum o) LN); rewrite X1; apply in_or_app; left; exact Ic |]. exists c, q, d. auto.
Qed.

(** ** The objects *)
Lemma alike_entry : forall d d2 k v', alike (ODict d) (ODict d2) -> In (k, v') d2 -> exists v, In (k, v) d /\ alike v v'.
Proof.
  intros d d2 k v' A I. inversion A as [| | | | | | d0 d1 d3 F PM]; subst. apply (Permutation_in _ (Permutation_sym PM)) in I. clear -F I.
  induction F as [| [k0 v0] [k1 v1] d d1 [Q V] F IH]; [destruct I |]. cbn [fst snd] in Q, V. destruct I as [I | I].
  - injection I as -> ->. subst k0. exists v0. split; [left; reflexivity | exact V].
  - destruct (IH I) as (v & Iv & Av). exists v. split; [right; exact Iv | exact Av].
Qed.
Lemma entry_In : forall d k v, entry d k = Some v -> In (k, v) d.
Proof.
  induction d as [| [k0 v0] d IH]; intros k v H; cbn [entry] in H; [discriminate H |].
  destruct (list_eq_dec Byte.byte_eq_dec k k0) as [-> | _]; [injection H as ->; left; reflexivity | right; apply IH; exact H].
Qed.
Lemma key_In : forall d k v, key_of k d (Some v) -> In (k, v) d.
Proof. intros d k v (d1 & d2 & -> & _). apply in_or_app. right. left. reflexivity. Qed.
Lemma raw_header : forall o, 0 <= inum o -> 0 <= igen o -> header (dec (inum o) ++ lit " " ++ dec (igen o) ++ lit " " ++ lit "obj") (inum o) (igen o).
Proof.
  intros o Ln Lg. assert (W : white (lit " ")) by (split; [discriminate | intros b [<- | []]; vm_compute; tauto]).
  apply hd_intro; [apply dec_text; exact Ln | exact W | apply dec_text; exact Lg | exact W].
Qed.
Lemma raw_object : forall E file pre o v r, fmt_ok (e_fmt E) -> again (e_fmt E) o -> written (e_fmt E) (ival o) v -> file = pre ++ printed o v (x0a :: r) ->
  (pre = [] \/ exists x, pre = x ++ [x0a]) -> exists o', same_object o o' /\ object_at E file (zlen pre) o'.
Proof.
  intros E file pre o v r FM A W -> PE. destruct A as [N1 N2 PV TX TY ST]. destruct (written_denotes _ FM _ _ W PV) as (v' & AL & OT).
  set (h := dec (inum o) ++ lit " " ++ dec (igen o) ++ lit " " ++ lit "obj").
  assert (LH : zlen h <= 113).
  { unfold h. rewrite !zlen_app. pose proof (dec_len (inum o) ltac:(lia)). pose proof (dec_len (igen o) ltac:(lia)). change (zlen (lit " ")) with 1. change (zlen (lit "obj")) with 3. lia. }
  assert (TY' : forall d, v' = ODict d -> entry d (lit "Type") <> Some (OName (lit "XRef"))).
  { intros d -> Q. apply entry_In in Q. inversion AL as [| | | | | | d0 d1 d2 F PM HQ]; subst. rewrite <- HQ in AL. destruct (alike_entry _ _ _ _ AL Q) as (w & I & AW). inversion AW; subst. exact (TY d0 (eq_sym HQ) I). }
  exists {| inum := inum o; igen := igen o; ival := v'; istream := istream o |}. split; [repeat split; exact AL |].
  constructor; cbn [inum igen ival istream]; [apply zlen_nonneg | lia | lia | | | exact TY'].
  - intros b q d L Q. destruct PE as [-> | (x & ->)]; [unfold zlen in L; cbn in L; lia |]. rewrite zlen_app in Q. change (zlen [x0a]) with 1 in Q. replace (zlen x + 1 - 1) with (zlen x) in Q by lia.
    rewrite <- app_assoc in Q. rewrite zdrop_app in Q. cbn [app] in Q. injection Q as <- _. apply not_digit. cbn. intuition discriminate.
  - exists h. rewrite zdrop_app. destruct (istream o) as [data |] eqn:QS.
    + destruct (ST data eq_refl) as ((d & QD & NF & NP & SZ & NE & NC) & _ & DT). rewrite QD in AL, W. inversion AL as [| | | | | | d0 d1 d2 F PM]; subst.
      exists ([x0a] ++ v ++ [x0a] ++ lit "stream" ++ [] ++ [x0a] ++ data ++ [x0a] ++ lit "endstream" ++ (x0a :: lit "endobj" ++ x0a :: x0a :: r)).
      split; [unfold printed, h; rewrite QS; cbn [s_part]; apps; reflexivity |]. split; [apply raw_header; lia |].
      assert (K : forall k, ~ In k (map fst d) -> key_of k d2 None).
      { intros k NI I. apply NI. rewrite (al_refl_keys _ _ F). eapply Permutation_in; [apply Permutation_map, Permutation_sym, PM | exact I]. }
      apply (bh_stream E h [x0a] v d2 [x0a] [] [x0a] data [x0a] (x0a :: lit "endobj" ++ x0a :: x0a :: r) [] [] (Some data));
        [exact lf_gap | exact OT | exact lf_gap | intros b [] | apply lf_ends | constructor | exact NE | apply ea_lf; exact NC | | apply fo_none, K, NF | apply po_none, K, NP | | discriminate | constructor].
      * specialize (SZ _ _ _ W (dec_decimal _ (proj1 N1)) (dec_decimal _ (proj1 N2))). unfold bufsize, h. rewrite !zlen_app. change (zlen (lit " ")) with 1. change (zlen (lit "obj")) with 3. change (zlen [x0a]) with 1. change (zlen (lit "stream")) with 6. change (zlen (@nil byte)) with 0. lia.
      * intros x KX n g ->. apply key_In in KX. destruct (alike_entry _ _ _ _ AL KX) as (w & I & AW). inversion AW; subst. exact (DT d n g QD I).
    + exists ([x0a] ++ v ++ [x0a] ++ lit "endobj" ++ (x0a :: x0a :: r)).
      split; [unfold printed, h; rewrite QS; cbn [s_part]; apps; reflexivity |]. split; [apply raw_header; lia |].
      apply (bh_plain E h [x0a] v v' [x0a] (x0a :: x0a :: r)); [exact lf_gap | exact OT | exact lf_gap | apply lf_ends | apply RawReadP.endobj_follows | apply lf_ends |]. unfold bufsize. pose proof (zlen_app _ h [x0a]) as LA. change (zlen [x0a]) with 1 in LA. lia.
Qed.

Lemma raw_objects : forall E fmt L ts, fmt = e_fmt E -> fmt_ok fmt -> Forall2 (written_object fmt) L ts -> Forall (again fmt) L -> forall file pre, file = pre ++ raw_text ts ->
  (pre = [] \/ exists x, pre = x ++ [x0a]) ->
  exists objs, map fst objs = starts_of (zlen pre) ts /\ Forall2 (fun o x => same_object o (snd x) /\ object_at E file (fst x) (snd x)) L objs.
Proof.
  intros E fmt L ts FE FM H. induction H as [| o t L ts W H IH]; intros A file pre Q PE; [exists []; split; [reflexivity | constructor] |]. inversion A as [| ? ? Ao AL]; subst fmt. subst.
  rewrite raw_cons in *. destruct (printed_text _ _ _ W (proj1 (ag_number _ _ Ao)) (proj1 (ag_generation _ _ Ao))) as (v & Wv & PT).
  destruct (raw_object E (pre ++ t ++ x0a :: raw_text ts) pre o v (raw_text ts) FM Ao Wv ltac:(rewrite PT; reflexivity) PE) as (o' & SO & OA).
  destruct (IH AL (pre ++ t ++ x0a :: raw_text ts) (pre ++ t ++ [x0a])) as (objs & MF & F2); [apps; reflexivity | right; exists (pre ++ t); apps; reflexivity |].
  exists ((zlen pre, o') :: objs). split; [cbn [map fst starts_of]; rewrite MF, zlen_app; reflexivity |]. constructor; [split; [exact SO | exact OA] | exact F2].
Qed.
Lemma unique_number : forall (objs : list (Z * iobj)) i o i' o', NoDup (map (fun x => inum (snd x)) objs) -> In (i, o) objs -> In (i', o') objs -> inum o' = inum o -> (i', o') = (i, o).
Proof.
  induction objs as [| x objs IH]; intros i o i' o' ND I I' Q; [destruct I |]. cbn [map] in ND. inversion ND as [| ? ? NI ND']; subst.
  destruct I as [-> | I]; destruct I' as [I' | I'].
  - congruence.
  - exfalso. apply NI. cbn [snd]. rewrite <- Q. apply in_map_iff. exists (i', o'). auto.
  - exfalso. apply NI. subst x. cbn [snd]. rewrite Q. apply in_map_iff. exists (i, o). auto.
  - eapply IH; eassumption.
Qed.
Lemma raw_loaded : forall E L raw fuel ord pw, fmt_ok (e_fmt E) -> prints (e_fmt E) L raw -> NoDup (map inum L) -> Forall (again (e_fmt E)) L -> (2 <= fuel)%nat -> (forall m, Permutation (ord m) m) ->
  exists L' p, load fuel E ord raw pw (new_parser raw) = Ok (None, p) /\ offsets_ok (pxref p) /\ Forall2 same_object L L' /\
    (forall o, In o L' -> fetched E raw p (inum o) o) /\ (forall n, SpecOut.in_use p n <-> In n (map inum L')).
Proof.
  intros E L raw fuel ord pw FM (ts & W & ->) ND A F P. change (List.concat (map (fun t => t ++ [x0a]) ts)) with (raw_text ts).
  destruct (raw_objects E (e_fmt E) L ts eq_refl FM W A (raw_text ts) [] eq_refl (or_introl eq_refl)) as (objs & MF & F2).
  assert (OA : forall i o, In (i, o) objs -> object_at E (raw_text ts) i o).
  { intros i o I. clear -F2 I. induction F2 as [| a x l l' [_ X] F2 IH]; [destruct I |]. destruct I as [-> | I]; [exact X | exact (IH I)]. }
  assert (SN : map (fun x => inum (snd x)) objs = map inum L).
  { clear -F2. induction F2 as [| a x l l' [(N & _) _] F2 IH]; [reflexivity |]. cbn [map]. rewrite IH, N. reflexivity. }
  destruct (recovered E fuel ord (raw_text ts) pw objs F P (raw_xref _ _ _ W A) OA) as (p & LD & R & OF & FE & IU).
  { rewrite MF. exact (raw_only _ _ _ W A). }
  exists (map snd objs), p. split; [exact LD |]. split; [exact OF |]. split; [| split].
  - clear -F2. induction F2 as [| a x l l' [X _] F2 IH]; cbn [map]; constructor; assumption.
  - intros o I. apply in_map_iff in I. destruct I as ([i o'] & Q & I). cbn [snd] in Q. subst o'. apply (FE i). split; [exact I |]. intros i' o' I' Q.
    rewrite <- SN in ND. pose proof (unique_number objs i o i' o' ND I I' Q) as U. injection U as -> _. lia.
  - intros n. rewrite IU. split.
    + intros (i & o & I & <-). apply in_map_iff. exists o. split; [reflexivity |]. apply in_map_iff. exists (i, o). auto.
    + intros I. apply in_map_iff in I. destruct I as (o & <- & I). apply in_map_iff in I. destruct I as ([i o'] & Q & I). cbn [snd] in Q. subst o'. eauto.
Qed.
Lemma raw_printed : forall E L raw OD fuel S pw ops, fmt_ok (e_fmt E) -> prints (e_fmt E) L raw -> NoDup (map inum L) -> Forall (again (e_fmt E)) L -> order_ok OD -> (2 <= fuel)%nat ->
  s_input S = Some raw -> parse E OD fuel S pw = (ops, Ok PNone) ->
  exists L1 L2, Forall2 same_object L L1 /\ Permutation L1 L2 /\ prints (e_fmt E) L2 (content FRaw ops).
Proof.
  intros E L raw OD fuel S pw ops FM PR ND A OK F IN H.
  destruct (raw_loaded E L raw fuel (o_objects OD) pw FM PR ND A F (fun m => Permutation_sym (proj1 (proj2 OK) m))) as (L' & p & LD & OF & SO & FE & IU).
  assert (SN : map inum L' = map inum L) by (clear -SO; induction SO as [| a x l l' (N & _) F2 IH]; [reflexivity | cbn [map]; rewrite IH, N; reflexivity]).
  destruct (held_out E raw L' p (fun o => o) OF ltac:(rewrite SN; exact ND) (fun o => eq_refl)) with (OD := OD) (fuel := fuel) (S := S) (pw := pw) (ops := ops) as (L2 & ts & PM & W & CT); try assumption.
  - intros o I. split; [exact (FE o I) |]. apply IU. apply in_map. exact I.
  - intros n U. apply IU in U. apply in_map_iff in U. destruct U as (o & Q & I). eauto.
  - rewrite map_id in PM. exists L', L2. split; [exact SO |]. split; [apply Permutation_sym; exact PM |]. exists ts. auto.
Qed.
(** ** A run and a second run on its raw.pdf *)
Theorem parsed_again : forall E OD fuel S pw ops, fmt_ok (e_fmt E) -> order_ok OD -> parse E OD fuel S pw = (ops, Ok PNone) ->
  exists file p1 L, s_input S = Some file /\ load fuel E (o_objects OD) file pw (new_parser file) = Ok (None, p1) /\
    NoDup (map inum L) /\ (forall n, SpecOut.in_use p1 n <-> In n (map inum L)) /\ (forall o, In o L -> exists q, kept file p1 q /\ fetched E file q (inum o) o) /\
    prints (e_fmt E) L (content FRaw ops) /\
    (Forall (again (e_fmt E)) L ->
      (forall fuel' ord pw', (2 <= fuel')%nat -> (forall m, Permutation (ord m) m) ->
        exists L' p2, load fuel' E ord (content FRaw ops) pw' (new_parser (content FRaw ops)) = Ok (None, p2) /\ Forall2 same_object L L' /\
          (forall o, In o L' -> fetched E (content FRaw ops) p2 (inum o) o) /\ (forall n, SpecOut.in_use p2 n <-> In n (map inum L'))) /\
      (forall OD' fuel' S' pw' ops', order_ok OD' -> (2 <= fuel')%nat -> s_input S' = Some (content FRaw ops) -> parse E OD' fuel' S' pw' = (ops', Ok PNone) ->
        exists L1 L2, Forall2 same_object L L1 /\ Permutation L1 L2 /\ prints (e_fmt E) L2 (content FRaw ops'))).
Proof.
  intros E OD fuel S pw ops FM OK H. destruct (parse_raw _ _ _ _ _ _ OK H) as (file & p1 & IN & LD & objs & ts & ND & IU & FF & W & CT).
  rewrite Forall_forall in FF. assert (MN : map inum (map snd objs) = map fst objs) by (rewrite map_map; apply map_ext_in; intros x I; exact (proj1 (FF x I))).
  assert (PR : prints (e_fmt E) (map snd objs) (content FRaw ops)).
  { exists ts. split; [| exact CT]. clear -W. induction W; cbn [map]; constructor; assumption. }
  exists file, p1, (map snd objs). split; [exact IN |]. split; [exact LD |]. rewrite MN. split; [exact ND |]. split; [intros n; symmetry; apply IU |]. split.
  { intros o I. apply in_map_iff in I. destruct I as (x & <- & I). destruct (FF x I) as (N & q & K & FE). exists q. rewrite N. auto. }
  split; [exact PR |]. intros A. split.
  - intros fuel' ord pw' F P. destruct (raw_loaded E _ _ fuel' ord pw' FM PR ltac:(rewrite MN; exact ND) A F P) as (L' & p & L1 & _ & SO & FE & IU'). exists L', p. auto.
  - intros OD' fuel' S' pw' ops' OK' F IN' H'. eapply raw_printed; eauto. rewrite MN. exact ND.
Qed.
