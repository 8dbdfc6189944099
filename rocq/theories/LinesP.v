(** LinesP.v -- literal strings with line ends and large octal codes (C103). *)
From Verif Require Import Base BaseP Msg Reader ReaderP Num Lexer Obj ReadObj Plain LexerP SpecLex SpecLexP SpecRead PObjP SpecObjP ReadP SpecLines.
From Coq Require Import Strings.String.

Lemma near_app : forall v1 w1 v2 w2, near v1 w1 -> near v2 w2 -> near (v1 ++ v2) (w1 ++ w2).
Proof. intros v1 w1 v2 w2 H1 H2. induction H1; cbn [app].
  - exact H2.
  - apply nr_same. exact IHnear.
  - apply nr_crlf. exact IHnear.
  - apply nr_cr. exact IHnear.
  - apply (nr_octal a c x y z o); assumption.
Qed.
Lemma octdigit_lt : forall a x, octdigit a x -> (x < 8)%nat.
Proof. intros a x H. assert (N : nth_error (lit "01234567") x <> None) by (unfold octdigit, digit in H; congruence). apply nth_error_Some in N. exact N. Qed.
Lemma byte_at : forall z, 0 <= z < 256 -> bv (zb z) = z.
Proof. intros z H. rewrite bv_zb. apply Z.mod_small. exact H. Qed.
Lemma out_outs : forall ms b x, out ms b x = outs ms [b] x.
Proof. intros ms b [[v r] m]. reflexivity. Qed.
Lemma follows_octal : forall t l, ~ starts_with_octal t -> solid l -> exists c r, t ++ l = c :: r /\ is_octal c = false.
Proof.
  intros t l Hn Hl. destruct t as [| c t]; [destruct Hl as (c & r & -> & Q1 & Q2); exists c, r; auto |]. exists c, (t ++ l). split; auto. eapply starts_octal_false; eauto.
Qed.
Lemma std_p : forall t w, std_body t w -> exists v ms, near v w /\ forall opn l, 1 <= opn -> solid l -> p_str opn (t ++ l) = outs ms v (p_str opn l).
Proof.
  induction 1 as
   [| b t w N1 N2 N3 N4 H IH
    | t w H IH
    | t w N H IH
    | t1 w1 t2 w2 H1 IH1 H2 IH2
    | c b t w He H IH
    | c t w Ne No Nl H IH
    | a b c x y z o t w Ha Hb Hc Ho H IH
    | a b x y o t w Ha Hb Hn Ho H IH
    | a x o t w Ha Hn Ho H IH
    | t w H IH | t w H IH | t w Hn H IH ].
  1: { exists [], []. split; [constructor |]. intros. rewrite outs_nil. reflexivity. }
  all: try (destruct IH as (v & ms & NV & IH)).
  - exists (b :: v), ms. split; [apply nr_same; exact NV |]. intros opn l Ho Hl. change ((b :: t) ++ l) with (b :: (t ++ l)). rewrite p_str_cons.
    apply beq_neq in N1, N2, N3. rewrite N1, N2, N3. cbv zeta. destruct (opn =? 0) eqn:E; [apply Z.eqb_eq in E; lia |]. rewrite IH by (auto; lia). rewrite outs_out. reflexivity.
  - exists (x0d :: x0a :: v), ms. split; [apply nr_crlf; exact NV |]. intros opn l Ho Hl. change ((x0d :: x0a :: t) ++ l) with (x0d :: x0a :: (t ++ l)). rewrite p_str_cons.
    change (beq x0d "\"%byte) with false. change (beq x0d "("%byte) with false. change (beq x0d ")"%byte) with false. cbv zeta iota. destruct (opn =? 0) eqn:E; [apply Z.eqb_eq in E; lia |].
    rewrite p_str_cons. change (beq x0a "\"%byte) with false. change (beq x0a "("%byte) with false. change (beq x0a ")"%byte) with false. cbv zeta iota. rewrite E.
    rewrite IH by (auto; lia). rewrite !outs_out. reflexivity.
  - exists (x0d :: v), ms. split; [apply nr_cr; exact NV |]. intros opn l Ho Hl. change ((x0d :: t) ++ l) with (x0d :: (t ++ l)). rewrite p_str_cons.
    change (beq x0d "\"%byte) with false. change (beq x0d "("%byte) with false. change (beq x0d ")"%byte) with false. cbv zeta iota. destruct (opn =? 0) eqn:E; [apply Z.eqb_eq in E; lia |].
    rewrite IH by (auto; lia). rewrite !outs_out. reflexivity.
  - destruct IH1 as (v1 & m1 & NV1 & IH1). destruct IH2 as (v2 & m2 & NV2 & IH2). exists ("("%byte :: v1 ++ ")"%byte :: v2), (m1 ++ m2).
    split; [apply nr_same, near_app; [exact NV1 | apply nr_same; exact NV2] |]. intros opn l Ho Hl.
    replace (("("%byte :: t1 ++ ")"%byte :: t2) ++ l) with ("("%byte :: (t1 ++ ")"%byte :: (t2 ++ l))) by (simpl; rewrite <- app_assoc; reflexivity).
    rewrite p_str_cons. change (beq "("%byte "\"%byte) with false. change (beq "("%byte "("%byte) with true. cbv zeta iota. destruct (opn + 1 =? 0) eqn:E; [apply Z.eqb_eq in E; lia |].
    rewrite IH1 by (try lia; apply solid_close). rewrite (p_str_cons (opn + 1)). change (beq ")"%byte "\"%byte) with false. change (beq ")"%byte "("%byte) with false.
    change (beq ")"%byte ")"%byte) with true. cbv zeta iota. replace (opn + 1 - 1) with opn by lia. destruct (opn =? 0) eqn:E2; [apply Z.eqb_eq in E2; lia |].
    rewrite IH2 by (auto; lia). rewrite !outs_out, outs_outs. reflexivity.
  - exists (b :: v), ms. split; [apply nr_same; exact NV |]. intros opn l Ho Hl. change (("\"%byte :: c :: t) ++ l) with ("\"%byte :: c :: (t ++ l)).
    rewrite p_str_cons. rewrite beq_refl. destruct (esc_letter_spec _ _ He) as (-> & -> & -> & ->). rewrite IH by (auto; lia). rewrite outs_out. reflexivity.
  - exists (c :: v), ms. split; [apply nr_same; exact NV |]. intros opn l Ho Hl. change (("\"%byte :: c :: t) ++ l) with ("\"%byte :: c :: (t ++ l)).
    rewrite p_str_cons. rewrite beq_refl. apply eol_false in Nl. apply orb_false_iff in Nl. destruct Nl as [-> ->]. rewrite (no_octdigit _ No). rewrite (unescape_other _ Ne).
    rewrite IH by (auto; lia). rewrite outs_out. reflexivity.
  - pose proof (octdigit_lt _ _ Ha) as La. pose proof (octdigit_lt _ _ Hb) as Lb. pose proof (octdigit_lt _ _ Hc) as Lc.
    destruct (Z.leb_spec (Z.of_nat (64 * x + 8 * y + z)) 255) as [LE | GT].
    + assert (Q : bv o = Z.of_nat (64 * x + 8 * y + z)) by (rewrite Ho; apply Z.mod_small; lia). exists (o :: v), (str_msg o ++ ms). split; [apply nr_same; exact NV |]. intros opn l H0 Hl.
      change (("\"%byte :: a :: b :: c :: t) ++ l) with ("\"%byte :: a :: b :: c :: (t ++ l)). rewrite p_str_cons. rewrite beq_refl. destruct (octal_eol _ _ Ha) as (-> & -> & ->).
      destruct (octal_eol _ _ Hb) as (_ & _ & ->). destruct (octal_eol _ _ Hc) as (_ & _ & ->). rewrite (oct3 _ _ _ _ _ _ Ha Hb Hc). unfold oct. rewrite (oct3 _ _ _ _ _ _ Ha Hb Hc).
      rewrite (zb_value _ _ Q). destruct (Z.leb_spec (Z.of_nat (64 * x + 8 * y + z)) 255); [| lia]. rewrite IH by (auto; lia). rewrite outs_out. reflexivity.
    + set (f := zb (Z.of_nat (8 * x + y))). assert (BF : bv f = Z.of_nat (8 * x + y)) by (apply byte_at; lia).
      exists (f :: c :: v), ((InvalidOctal :: str_msg f) ++ ms). split.
      { eapply nr_octal; [exact La | exact Lb | exact Hc | lia | exact BF | | exact NV]. rewrite Ho. replace (Z.of_nat (64 * x + 8 * y + z)) with (Z.of_nat (64 * x + 8 * y + z) - 256 + 1 * 256) at 1 by lia.
        rewrite Z.mod_add by lia. apply Z.mod_small. lia. }
      intros opn l H0 Hl. change (("\"%byte :: a :: b :: c :: t) ++ l) with ("\"%byte :: a :: b :: c :: (t ++ l)). rewrite p_str_cons. rewrite beq_refl.
      destruct (octal_eol _ _ Ha) as (-> & -> & ->). destruct (octal_eol _ _ Hb) as (_ & _ & ->). destruct (octal_eol _ _ Hc) as (C1 & C2 & C3). rewrite C3. rewrite (oct3 _ _ _ _ _ _ Ha Hb Hc).
      destruct (Z.leb_spec (Z.of_nat (64 * x + 8 * y + z)) 255); [lia |]. unfold oct. rewrite (oct2 _ _ _ _ Ha Hb), (zb_value _ _ BF).
      assert (PL : p_str opn (c :: t ++ l) = out [] c (p_str opn (t ++ l))).
      { rewrite p_str_cons. assert (beq c "\"%byte = false /\ beq c "("%byte = false /\ beq c ")"%byte = false) as (-> & -> & ->) by (repeat split; apply beq_neq; intros ->; discriminate C3).
        cbv zeta. destruct (opn =? 0) eqn:E; [apply Z.eqb_eq in E; lia | reflexivity]. }
      rewrite PL, IH by (auto; lia). rewrite !outs_out. reflexivity.
  - exists (o :: v), (str_msg o ++ ms). split; [apply nr_same; exact NV |]. intros opn l H0 Hl. destruct (follows_octal t l Hn Hl) as (c & r & EX & NO).
    change (("\"%byte :: a :: b :: t) ++ l) with ("\"%byte :: a :: b :: (t ++ l)). rewrite p_str_cons. rewrite beq_refl. destruct (octal_eol _ _ Ha) as (-> & -> & ->).
    destruct (octal_eol _ _ Hb) as (_ & _ & ->). rewrite EX, NO, <- EX. unfold oct. rewrite (oct2 _ _ _ _ Ha Hb). rewrite (zb_value _ _ Ho). rewrite IH by (auto; lia). rewrite outs_out. reflexivity.
  - exists (o :: v), (str_msg o ++ ms). split; [apply nr_same; exact NV |]. intros opn l H0 Hl. destruct (follows_octal t l Hn Hl) as (c & r & EX & NO).
    change (("\"%byte :: a :: t) ++ l) with ("\"%byte :: a :: (t ++ l)). rewrite p_str_cons. rewrite beq_refl. destruct (octal_eol _ _ Ha) as (-> & -> & ->).
    rewrite EX, NO, <- EX. unfold oct. rewrite (oct1 _ _ Ha). rewrite (zb_value _ _ Ho). rewrite IH by (auto; lia). rewrite outs_out. reflexivity.
  - exists v, ms. split; [exact NV |]. intros opn l H0 Hl. change (("\"%byte :: x0a :: t) ++ l) with ("\"%byte :: x0a :: (t ++ l)). rewrite p_str_cons. rewrite beq_refl. change (beq x0a x0a) with true. cbv iota. apply IH; auto.
  - exists v, ms. split; [exact NV |]. intros opn l H0 Hl. change (("\"%byte :: x0d :: x0a :: t) ++ l) with ("\"%byte :: x0d :: x0a :: (t ++ l)).
    rewrite p_str_cons. rewrite beq_refl. change (beq x0d x0a) with false. change (beq x0d x0d) with true. change (beq x0a x0a) with true. cbv iota. apply IH; auto.
  - exists v, ms. split; [exact NV |]. intros opn l H0 Hl. assert (NX : exists c r, t ++ l = c :: r /\ beq c x0a = false).
    { destruct t as [| c t]; [destruct Hl as (c & r & -> & Q1 & Q2); exists c, r; auto |]. exists c, (t ++ l). split; auto. apply beq_neq. intros ->. apply Hn. exists t. reflexivity. }
    destruct NX as (c & r & EX & NO). change (("\"%byte :: x0d :: t) ++ l) with ("\"%byte :: x0d :: (t ++ l)). rewrite p_str_cons. rewrite beq_refl. change (beq x0d x0a) with false. change (beq x0d x0d) with true.
    cbv iota. rewrite EX, NO, <- EX. apply IH; auto.
Qed.
Lemma std_read : forall file dec s g t w r, wf file s -> total dec -> gap g -> std_body t w -> rest s = g ++ "("%byte :: t ++ ")"%byte :: r ->
  exists s' v u ms, near v w /\ dec v = Ok u /\ ReadObject file dec s = Ok ((OStr u, ENone), s') /\ moved file s s' r ms /\ (forall v' k, str_body t v' k -> v = v').
Proof.
  intros file dec s g t w r W T Hg H E. destruct (std_p _ _ H) as (v & ms & NV & P).
  assert (PS : p_str 1 (t ++ ")"%byte :: r) = ((v, r), ms)).
  { rewrite P by (try lia; apply solid_close). rewrite p_str_cons. change (beq ")"%byte "\"%byte) with false. change (beq ")"%byte "("%byte) with false.
    change (beq ")"%byte ")"%byte) with true. cbv zeta iota. change (1 - 1 =? 0) with true. cbv iota. unfold outs. rewrite !app_nil_r. reflexivity. }
  destruct (read_plain file dec (fn dec) s _ r (OStr v) ms W (total_fn _ T) E) as (s' & H1 & H2).
  { rewrite P0_gap by auto. rewrite P0_str. rewrite PS. reflexivity. }
  exists s', v, (fn dec v), ms. split; [exact NV |]. split; [apply total_fn; exact T |]. split; [exact H1 |]. split; [exact H2 |].
  intros v' k SB. rewrite (str_text_p _ _ _ r SB) in PS. congruence.
Qed.
