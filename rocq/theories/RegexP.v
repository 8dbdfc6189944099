(** RegexP.v -- the matcher of Regex.v decides the language of its expression,
    and finds the leftmost match; the languages of the three expressions. *)
From Verif Require Import Base BaseP Lexer Regex SpecLex SpecLexP SpecScan.
From Coq Require Import Strings.String.

Inductive lang : rx -> bytes -> Prop :=
| l_set : forall f b, f b = true -> lang (RSet f) [b]
| l_seq : forall a b s t, lang a s -> lang b t -> lang (RSeq a b) (s ++ t)
| l_left : forall a b s, lang a s -> lang (RAlt a b) s
| l_right : forall a b s, lang b s -> lang (RAlt a b) s
| l_stop : forall a, lang (RStar a) []
| l_more : forall a s t, s <> [] -> lang a s -> lang (RStar a) t -> lang (RStar a) (s ++ t).

Lemma shorter_spec : forall a b, shorter a b = true <-> (List.length a < List.length b)%nat.
Proof. intros. unfold shorter. apply Nat.ltb_lt. Qed.

Lemma rmatch_sound : forall r A s (k : bytes -> option A) x, rmatch r s k = Some x ->
  exists t s', s = t ++ s' /\ lang r t /\ k s' = Some x.
Proof.
  induction r as [f | a IHa b IHb | a IHa b IHb | a IHa]; intros A s k x H.
  - cbn [rmatch] in H. destruct s as [| c s]; [discriminate |]. destruct (f c) eqn:F; [| discriminate].
    exists [c], s. split; [reflexivity |]. split; [apply l_set; assumption | assumption].
  - cbn [rmatch] in H. destruct (IHa _ _ _ _ H) as (t & s1 & -> & L1 & H1). destruct (IHb _ _ _ _ H1) as (t' & s2 & -> & L2 & H2).
    exists (t ++ t'), s2. split; [rewrite app_assoc; reflexivity |]. split; [apply l_seq; assumption | assumption].
  - cbn [rmatch] in H. destruct (rmatch a s k) eqn:Q.
    + assert (a0 = x) by congruence. subst. destruct (IHa _ _ _ _ Q) as (t & s' & E & L & K). exists t, s'. split; [assumption |]. split; [apply l_left; assumption | assumption].
    + destruct (IHb _ _ _ _ H) as (t & s' & E & L & K). exists t, s'. split; [assumption |]. split; [apply l_right; assumption | assumption].
  - cbn [rmatch] in H. remember (List.length s) as n eqn:N. clear N. revert s x H.
    induction n as [| n IH]; intros s x H.
    + exists [], s. split; [reflexivity |]. split; [apply l_stop | assumption].
    + match type of H with match ?m with _ => _ end = _ => destruct m eqn:Q end.
      * assert (a0 = x) by congruence. subst. destruct (IHa _ _ _ _ Q) as (t & s1 & -> & L1 & H1). cbv beta in H1.
        destruct (shorter s1 (t ++ s1)) eqn:S; [| discriminate]. apply shorter_spec in S. rewrite app_length in S.
        destruct (IH _ _ H1) as (t' & s2 & -> & L2 & H2).
        exists (t ++ t'), s2. split; [rewrite app_assoc; reflexivity |]. split; [| assumption].
        apply l_more; [destruct t; [cbn in S; lia | discriminate] | assumption | assumption].
      * exists [], s. split; [reflexivity |]. split; [apply l_stop | assumption].
Qed.

Lemma rmatch_complete : forall r A t s' (k : bytes -> option A), lang r t -> k s' <> None -> rmatch r (t ++ s') k <> None.
Proof.
  induction r as [f | a IHa b IHb | a IHa b IHb | a IHa]; intros A t s' k L K.
  - inversion L as [f' c F | | | | |]; subst. cbn [rmatch app]. rewrite F. assumption.
  - inversion L as [| a' b' t1 t2 L1 L2 | | | |]; subst. cbn [rmatch]. rewrite <- app_assoc. apply IHa; [assumption |]. apply IHb; assumption.
  - cbn [rmatch]. inversion L as [| | a' b' t1 L1 | a' b' t1 L1 | |]; subst.
    + specialize (IHa A t s' k L1 K). destruct (rmatch a (t ++ s') k); [discriminate | contradiction].
    + specialize (IHb A t s' k L1 K). destruct (rmatch a (t ++ s') k); [discriminate | assumption].
  - cbn [rmatch].
    assert (G : forall q u, lang q u -> q = RStar a -> forall n, (List.length (u ++ s') <= n)%nat ->
      (fix star (n : nat) (s : bytes) {struct n} : option A :=
         match n with
         | O => k s
         | S n' => match rmatch a s (fun s'0 => if shorter s'0 s then star n' s'0 else None) with Some x => Some x | None => k s end
         end) n (u ++ s') <> None).
    { intros q u Lu. induction Lu as [| | | | a' | a' s t' N L1 _ L2 IH]; intros E n B; try discriminate; assert (a' = a) by congruence; subst a'.
      - destruct n as [| n]; [exact K |]. cbn [app]. match goal with |- match ?m with _ => _ end <> None => destruct m end; [discriminate | exact K].
      - destruct n as [| n]; [rewrite app_length in B; destruct s; [congruence | cbn in B; lia] |].
        match goal with |- match ?m with _ => _ end <> None => assert (R : m <> None) end.
        { rewrite <- app_assoc. apply IHa; [assumption |]. cbv beta.
          replace (shorter (t' ++ s') (s ++ t' ++ s')) with true.
          - apply IH; [reflexivity |]. rewrite <- app_assoc, app_length in B. destruct s; [congruence |]. cbn in B. lia.
          - symmetry. apply shorter_spec. rewrite (app_length s). destruct s; [congruence | cbn; lia]. }
        match goal with |- match ?m with _ => _ end <> None => destruct m end; [discriminate | contradiction]. }
    apply (G _ _ L eq_refl). lia.
Qed.

Lemma rmatch_none : forall r s, rmatch r s Some = None <-> forall t s', s = t ++ s' -> ~ lang r t.
Proof.
  intros r s. split.
  - intros H t s' -> L. exact (rmatch_complete r _ t s' Some L ltac:(discriminate) H).
  - intros H. destruct (rmatch r s Some) eqn:Q; [| reflexivity]. destruct (rmatch_sound _ _ _ _ _ Q) as (t & s' & E & L & _).
    exfalso. eapply H; eassumption.
Qed.

(** *** leftmost matches *)
Lemma zdrop_nat : forall A (l : list A) k, zdrop (Z.of_nat k) l = skipn k l.
Proof. intros. rewrite zdrop_skipn by lia. rewrite Nat2Z.id. reflexivity. Qed.
Lemma rfind_some : forall r s i a b, rfind r s i = Some (a, b) ->
  exists k t s', a = i + Z.of_nat k /\ (k <= List.length s)%nat /\ skipn k s = t ++ s' /\ lang r t /\ b = a + zlen t /\
    forall k', (k' < k)%nat -> forall t' s'', skipn k' s = t' ++ s'' -> ~ lang r t'.
Proof.
  intros r. induction s as [| c s IH]; intros i a b H; cbn [rfind] in H.
  - destruct (rmatch r [] Some) as [l |] eqn:Q; [| discriminate]. destruct (rmatch_sound _ _ _ _ _ Q) as (t & s' & E & L & K).
    assert (l = s') by congruence. subst l. exists 0%nat, t, s'. assert (Ha : a = i) by congruence; assert (Hb : b = i + (zlen (@nil byte) - zlen s')) by (unfold bytes in *; congruence); subst a b. split; [lia |]. split; [cbn; lia |]. split; [exact E |].
    split; [assumption |]. split; [apply (f_equal zlen) in E; rewrite zlen_app in E; lia |]. intros k' B. lia.
  - destruct (rmatch r (c :: s) Some) as [l |] eqn:Q.
    + destruct (rmatch_sound _ _ _ _ _ Q) as (t & s' & E & L & K).
      assert (l = s') by congruence. subst l. exists 0%nat, t, s'. assert (Ha : a = i) by congruence; assert (Hb : b = i + (zlen (c :: s) - zlen s')) by (unfold bytes in *; congruence); subst a b. split; [lia |]. split; [cbn; lia |]. split; [exact E |].
      split; [assumption |]. split; [apply (f_equal zlen) in E; rewrite zlen_app in E; lia |]. intros k' B. lia.
    + destruct (IH _ _ _ H) as (k & t & s' & -> & B & E & L & -> & N). exists (S k), t, s'.
      split; [lia |]. split; [cbn; lia |]. split; [exact E |]. split; [assumption |]. split; [lia |].
      intros [| k'] B' t' s'' E'.
      * exact (proj1 (rmatch_none r (c :: s)) Q t' s'' E').
      * apply (N k') with (s'' := s''); [lia | exact E'].
Qed.
Lemma rfind_none : forall r s i, rfind r s i = None -> forall k t s', (k <= List.length s)%nat -> skipn k s = t ++ s' -> ~ lang r t.
Proof.
  intros r. induction s as [| c s IH]; intros i H k t s' B E; cbn [rfind] in H.
  - destruct (rmatch r [] Some) eqn:Q; [discriminate |]. destruct k; [| cbn in B; lia]. exact (proj1 (rmatch_none r []) Q t s' E).
  - destruct (rmatch r (c :: s) Some) eqn:Q; [discriminate |]. destruct k as [| k].
    + exact (proj1 (rmatch_none r (c :: s)) Q t s' E).
    + apply (IH _ H k t s'); [cbn in B; lia | exact E].
Qed.
Lemma zlen_zdrop : forall A (l : list A) i, 0 <= i <= zlen l -> zlen (zdrop i l) = zlen l - i.
Proof. intros A l i H. rewrite zdrop_len; lia. Qed.

Lemma rfind_spans : forall r file off a b, 0 <= off <= zlen file -> rfind r (zdrop off file) 0 = Some (a, b) ->
  0 <= a /\ spans (lang r) file (off + a) (off + b) /\ forall i', off <= i' < off + a -> ~ starts (lang r) file i'.
Proof.
  intros r file off a b O H. destruct (rfind_some _ _ _ _ _ H) as (k & t & s' & -> & B & E & L & -> & N).
  assert (Bk : Z.of_nat k <= zlen file - off) by (rewrite <- (zlen_zdrop _ file off O); unfold zlen; lia).
  split; [lia |]. split.
  - split; [lia |]. exists t, s'. split; [| split; [assumption | lia]]. rewrite <- E, <- zdrop_nat, zdrop_zdrop by lia. f_equal; lia.
  - intros i' Bi (Oi & t' & r' & E' & L'). apply (N (Z.to_nat (i' - off))) with (t' := t') (s'' := r'); [lia | | assumption].
    rewrite <- zdrop_nat, Z2Nat.id, zdrop_zdrop by lia. rewrite <- E'. f_equal; lia.
Qed.
Lemma rfind_nothing : forall r file off, 0 <= off <= zlen file -> rfind r (zdrop off file) 0 = None ->
  forall i, off <= i -> ~ starts (lang r) file i.
Proof.
  intros r file off O H i Bi (Oi & t & r' & E & L). apply (rfind_none _ _ _ H (Z.to_nat (i - off)) t r'); [| | assumption].
  - apply Nat2Z.inj_le. rewrite Z2Nat.id by lia. change (Z.of_nat (List.length (zdrop off file))) with (zlen (zdrop off file)). rewrite zlen_zdrop by assumption. lia.
  - rewrite <- zdrop_nat, Z2Nat.id, zdrop_zdrop by lia. rewrite <- E. f_equal; lia.
Qed.

(** *** The three languages *)
Lemma lang_lit : forall l t, lang (RLit l) t <-> t = l.
Proof.
  induction l as [| b l IH]; intros t.
  - cbn [RLit]. split.
    + intros H. inversion H as [| | | | | a s t' N L1 L2]; subst; [reflexivity |]. inversion L1. discriminate.
    + intros ->. apply l_stop.
  - destruct l as [| c l].
    + cbn [RLit]. split.
      * intros H. inversion H as [f b' F | | | | |]; subst. apply beq_eq in F. subst. reflexivity.
      * intros ->. apply l_set. apply beq_refl.
    + change (RLit (b :: c :: l)) with (RSeq (RSet (beq b)) (RLit (c :: l))). split.
      * intros H. inversion H as [| a' b' t1 t2 L1 L2 | | | |]; subst. apply IH in L2. inversion L1 as [f b' F | | | | |]; subst.
        apply beq_eq in F. subst. reflexivity.
      * intros ->. change (b :: c :: l) with ([b] ++ c :: l). apply l_seq; [apply l_set, beq_refl |]. apply IH. reflexivity.
Qed.
Lemma star_set : forall f t, lang (RStar (RSet f)) t <-> forall b, In b t -> f b = true.
Proof.
  intros f t. split.
  - intros H. remember (RStar (RSet f)) as q eqn:E. induction H as [| | | | a | a s t N L _ L2 IH]; try discriminate.
    + intros b [].
    + assert (a = RSet f) by congruence. subst a. inversion L as [f' c F | | | | |]; subst. intros b [<- | I]; [assumption |]. apply IH; auto.
  - induction t as [| b t IH]; intros H; [apply l_stop |]. change (b :: t) with ([b] ++ t). apply l_more; [discriminate | | ].
    + apply l_set. apply H. left; reflexivity.
    + apply IH. intros c I. apply H. right; assumption.
Qed.
Lemma lang_plus : forall a t, lang (RPlus a) t <-> exists s u, t = s ++ u /\ lang a s /\ lang (RStar a) u.
Proof.
  intros a t. unfold RPlus. split.
  - intros H. inversion H as [| a' b' t1 t2 L1 L2 | | | |]; subst. eauto.
  - intros (s & u & -> & L1 & L2). apply l_seq; assumption.
Qed.

Lemma digits_dec : forall t, (forall b, In b t -> is_digit b = true) <-> exists ds, dec_digits t ds.
Proof.
  intros t. split.
  - induction t as [| b t IH]; intros H; [exists []; apply dd_nil |]. destruct IH as (ds & D); [intros c I; apply H; right; assumption |].
    assert (D' := H b (or_introl eq_refl)). exists (Z.to_nat (bv b - 48) :: ds). apply dd_cons; [| assumption].
    apply decdigit_spec. split; [assumption |]. unfold is_digit in D'. apply andb_prop in D'. destruct D' as [A B]. apply Z.leb_le in A. change (bv "0"%byte) with 48 in A. lia.
  - intros (ds & D). induction D as [| b d t ds H D IH]; intros c I; [destruct I |]. destruct I as [<- | I]; [apply decdigit_spec in H; apply H | apply IH; assumption].
Qed.
Lemma lang_digits : forall t, lang re_digits t <-> exists n, nat_text t n.
Proof.
  intros t. unfold re_digits. rewrite lang_plus. split.
  - intros (s & u & -> & L1 & L2). inversion L1 as [f b F | | | | |]; subst. 
    destruct (proj1 (digits_dec (b :: u))) as (ds & D).
    { intros c [<- | I]; [assumption |]. apply (proj1 (star_set _ _) L2). assumption. }
    exists (dec_value ds), ds. split; [assumption |]. split; [inversion D; discriminate | reflexivity].
  - intros (n & ds & D & N & _). destruct t as [| b t]; [inversion D; congruence |].
    assert (H := proj2 (digits_dec (b :: t)) (ex_intro _ ds D)).
    exists [b], t. split; [reflexivity |]. split; [apply l_set; apply H; left; reflexivity |]. apply star_set. intros c I. apply H. right; assumption.
Qed.

Definition gap_unit : rx := RAlt (RSet (fun b => re_space b || beq b x00))
  (RSeq (RSet (beq "%"%byte)) (RStar (RSet (fun b => negb (beq b x0d || beq b x0a))))).
Lemma ws_re : forall b, re_space b || beq b x00 = true <-> ws_byte b.
Proof. intros b. rewrite <- is_ws_spec. destruct b; vm_compute; tauto. Qed.
Lemma not_eol_re : forall b, negb (beq b x0d || beq b x0a) = true <-> ~ eol_byte b.
Proof.
  intros b. rewrite negb_true_iff, orb_comm. split.
  - intros H E. apply eol_spec in E. congruence.
  - apply eol_false.
Qed.
Lemma lang_unit : forall t, lang gap_unit t <-> (exists b, t = [b] /\ ws_byte b) \/ (exists c, t = "%"%byte :: c /\ forall b, In b c -> ~ eol_byte b).
Proof.
  intros t. unfold gap_unit. split.
  - intros H. inversion H as [| | a b s L | a b s L | |]; subst.
    + inversion L as [f b' F | | | | |]; subst. left. exists b'. split; [reflexivity | apply ws_re; assumption].
    + right. inversion L as [| a' b' t1 t2 L1 L2 | | | |]; subst. inversion L1 as [f b' F | | | | |]; subst. apply beq_eq in F. subst b'.
      exists t2. split; [reflexivity |]. intros b I. apply not_eol_re. apply (proj1 (star_set _ _) L2). assumption.
  - intros [(b & -> & W) | (c & -> & H)].
    + apply l_left. apply l_set. apply ws_re. assumption.
    + apply l_right. change ("%"%byte :: c) with (["%"%byte] ++ c). apply l_seq; [apply l_set; reflexivity |]. apply star_set. intros b I. apply not_eol_re. auto.
Qed.
Lemma lang_units : forall t, lang (RStar gap_unit) t -> t = [] \/ sep t.
Proof.
  intros t H. remember (RStar gap_unit) as q eqn:E. induction H as [| | | | a | a s t N L _ L2 IH]; try discriminate; [left; reflexivity |].
  assert (a = gap_unit) by congruence. subst a. right.
  assert (S : sep s) by (apply lang_unit in L; destruct L as [(b & -> & W) | (c & -> & H)]; [apply sep_ws | apply sep_comment]; assumption).
  destruct (IH eq_refl) as [-> | S']; [rewrite app_nil_r; assumption | apply sep_app; assumption].
Qed.
Lemma star_app : forall a s t, lang (RStar a) s -> lang (RStar a) t -> lang (RStar a) (s ++ t).
Proof.
  intros a s t H T. remember (RStar a) as q eqn:E. induction H as [| | | | a' | a' s1 s2 N L _ L2 IH]; try discriminate; [exact T |].
  assert (a' = a) by congruence. subst a'. rewrite <- app_assoc. apply l_more; [assumption | assumption |]. apply IH; auto.
Qed.
Lemma sep_units : forall t, sep t -> lang (RStar gap_unit) t /\ t <> [].
Proof.
  intros t H. induction H as [b W | c C | s t S [IS NS] T [IT NT]].
  - split; [| discriminate]. rewrite <- (app_nil_r [b]). apply l_more; [discriminate | apply lang_unit; left; eauto | apply l_stop].
  - split; [| discriminate]. rewrite <- (app_nil_r ("%"%byte :: c)). apply l_more; [discriminate | apply lang_unit; right; eauto | apply l_stop].
  - split; [apply star_app; assumption |]. destruct s; [congruence | discriminate].
Qed.
Lemma lang_gap : forall t, lang re_gap t <-> sep t.
Proof.
  intros t. change re_gap with (RPlus gap_unit). rewrite lang_plus. split.
  - intros (s & u & -> & L1 & L2).
    assert (S : sep s) by (apply lang_unit in L1; destruct L1 as [(b & -> & W) | (c & -> & H)]; [apply sep_ws | apply sep_comment]; assumption).
    destruct (lang_units _ L2) as [-> | S']; [rewrite app_nil_r; assumption | apply sep_app; assumption].
  - intros S. destruct (sep_units t S) as [L N]. inversion L as [| | | | a | a s u N' L1 L2]; subst; [congruence |]. exists s, u. auto.
Qed.
Lemma lang_marker : forall t, lang start_obj_regexp t <-> obj_marker t.
Proof.
  intros t. unfold start_obj_regexp. split.
  - pose proof (lang_lit (lit "obj")) as G. revert G. generalize (RLit (lit "obj")) as o. intros o G H. inversion H as [| a1 b1 x1 y1 L1 H1 | | | |]; subst. inversion H1 as [| a2 b2 x2 y2 L2 H2 | | | |]; subst.
    inversion H2 as [| a3 b3 x3 y3 L3 H3 | | | |]; subst. inversion H3 as [| a4 b4 x4 y4 L4 H4 | | | |]; subst.
    apply lang_digits in L1, L3. apply lang_gap in L2, L4. apply G in H4. subst. destruct L1 as (n & D1), L3 as (g & D3).
    eapply om_intro; eassumption.
  - intros H. inversion H as [a n s b g s' D1 S1 D2 S2]; subst.
    apply l_seq; [apply lang_digits; eauto |]. apply l_seq; [apply lang_gap; assumption |]. apply l_seq; [apply lang_digits; eauto |].
    apply l_seq; [apply lang_gap; assumption |]. apply lang_lit. reflexivity.
Qed.

(** *** starts and spans for equal languages *)
Lemma starts_iff : forall (P Q : bytes -> Prop) file i, (forall t, P t <-> Q t) -> starts P file i -> starts Q file i.
Proof. intros P Q file i H (O & t & r & E & L). split; [assumption |]. exists t, r. split; [assumption | apply H; assumption]. Qed.
Lemma spans_iff : forall (P Q : bytes -> Prop) file i j, (forall t, P t <-> Q t) -> spans P file i j -> spans Q file i j.
Proof. intros P Q file i j H (O & t & r & E & L & J). split; [assumption |]. exists t, r. split; [assumption |]. split; [apply H; assumption | assumption]. Qed.
Lemma spans_bound : forall P file i j, spans P file i j -> i <= j <= zlen file.
Proof.
  intros P file i j (O & t & r & E & _ & ->). apply (f_equal zlen) in E. rewrite zlen_zdrop, zlen_app in E by assumption. unfold zlen in *. lia.
Qed.
Lemma starts_spans : forall P file i j, spans P file i j -> starts P file i.
Proof. intros P file i j (O & t & r & E & L & _). split; [assumption |]. eauto. Qed.

