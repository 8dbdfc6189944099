(** SpecLexP.v -- the plain lexer reads texts of SpecLex.v as they are meant. *)
From Verif Require Import Base BaseP Msg Num Lexer Obj Plain LexerP SpecLex.
From Coq Require Import Strings.String.

Lemma is_ws_spec : forall b, is_ws b = true <-> ws_byte b.
Proof. intros b. apply inb_In. Qed.
Lemma is_delim_spec : forall b, is_delim b = true <-> delim_byte b.
Proof. intros b. apply inb_In. Qed.
Lemma is_ws_false : forall b, ~ ws_byte b -> is_ws b = false.
Proof. intros b H. destruct (is_ws b) eqn:E; auto. apply is_ws_spec in E. tauto. Qed.
Lemma is_delim_false : forall b, ~ delim_byte b -> is_delim b = false.
Proof. intros b H. destruct (is_delim b) eqn:E; auto. apply is_delim_spec in E. tauto. Qed.

Lemma eol_spec : forall b, beq b x0a || beq b x0d = true <-> eol_byte b.
Proof. intros b. rewrite orb_true_iff, !beq_eq. reflexivity. Qed.
Lemma eol_false : forall b, ~ eol_byte b -> beq b x0a || beq b x0d = false.
Proof. intros b H. destruct (beq b x0a || beq b x0d) eqn:E; auto. apply eol_spec in E. tauto. Qed.

Lemma p_cm_app : forall c eol l, (forall b, In b c -> ~ eol_byte b) -> eol_byte eol ->
  p_cm (c ++ eol :: l) = p_ws l.
Proof.
  induction c as [|b c IH]; intros eol l H He; simpl.
  - rewrite (proj2 (eol_spec eol) He). reflexivity.
  - rewrite (eol_false b) by (apply H; left; auto). apply IH; auto. intros; apply H; right; auto.
Qed.
Lemma p_cm_open : forall c, (forall b, In b c -> ~ eol_byte b) -> p_cm c = [].
Proof.
  induction c as [|b c IH]; intros H; simpl; auto.
  rewrite (eol_false b) by (apply H; left; auto). apply IH. intros; apply H; right; auto.
Qed.

Lemma ws_not_comment : forall b, ws_byte b -> beq b "%"%byte = false.
Proof. intros b H. apply beq_neq. intros ->. simpl in H.
  repeat destruct H as [H|H]; try discriminate H; exact H.
Qed.

Lemma gap_ws_app : forall g, gap g -> forall l, p_ws (g ++ l) = p_ws l.
Proof.
  induction 1 as [|b g Hb Hg IH|c eol g Hc He Hg IH]; intros l; simpl; auto.
  - rewrite (ws_not_comment b Hb). rewrite (proj2 (is_ws_spec b) Hb). apply IH.
  - rewrite <- app_assoc. simpl. rewrite p_cm_app; auto.
Qed.

Lemma gap_app : forall g1 g2, gap g1 -> gap g2 -> gap (g1 ++ g2).
Proof.
  induction 1; intros; simpl; auto.
  - constructor; auto.
  - rewrite <- app_assoc. simpl. apply gap_comment; auto.
Qed.

(** every text is a gap, then a token, or blank *)
Lemma p_ws_split : forall l,
  (forall b r, p_ws l = b :: r -> exists g, gap g /\ l = g ++ b :: r) /\
  (forall b r, p_cm l = b :: r -> exists c eol g, (forall b, In b c -> ~ eol_byte b) /\ eol_byte eol /\
      gap g /\ l = c ++ eol :: g ++ b :: r) /\
  (p_ws l = [] -> blank l) /\
  (p_cm l = [] -> (forall b, In b l -> ~ eol_byte b) \/
     exists c eol r, (forall b, In b c -> ~ eol_byte b) /\ eol_byte eol /\ blank r /\ l = c ++ eol :: r).
Proof.
  induction l as [|a l (IH1 & IH2 & IH3 & IH4)].
  - repeat split; try discriminate.
    + intros _. apply blank_gap. constructor.
    + intros _. left. intros b [].
  - split; [|split; [|split]].
    + intros b r H. simpl in H. destruct (beq a "%"%byte) eqn:E1.
      * apply beq_eq in E1; subst a. destruct (IH2 b r H) as (c & eol & g & Hc & He & Hg & ->).
        exists ("%"%byte :: c ++ eol :: g). split; [apply gap_comment; auto|].
        simpl. rewrite <- app_assoc. reflexivity.
      * destruct (is_ws a) eqn:E2.
        -- destruct (IH1 b r H) as (g & Hg & ->). exists (a :: g). split; auto.
           constructor; auto. apply is_ws_spec; auto.
        -- injection H as -> ->. exists []. split; [constructor|reflexivity].
    + intros b r H. simpl in H. destruct (beq a x0a || beq a x0d) eqn:E1.
      * destruct (IH1 b r H) as (g & Hg & ->). exists [], a, g. split; [intros ? []|].
        split; [apply eol_spec; auto|]. auto.
      * destruct (IH2 b r H) as (c & eol & g & Hc & He & Hg & ->).
        exists (a :: c), eol, g. split; [|auto].
        intros x [<-|Hx]; auto. intros K. apply eol_spec in K. congruence.
    + intros H. simpl in H. destruct (beq a "%"%byte) eqn:E1.
      * apply beq_eq in E1; subst a. destruct (IH4 H) as [N|(c & eol & r & Hc & He & Hr & ->)].
        -- apply (blank_open [] l); [constructor|exact N].
        -- inversion Hr as [g Hg|g c' Hg Hc']; subst.
           ++ apply blank_gap. apply gap_comment; auto.
           ++ replace ("%"%byte :: c ++ eol :: g ++ "%"%byte :: c') with (("%"%byte :: c ++ eol :: g) ++ "%"%byte :: c')
                by (simpl; rewrite <- app_assoc; reflexivity).
              apply blank_open; auto. apply gap_comment; auto.
      * destruct (is_ws a) eqn:E2; [|discriminate]. apply is_ws_spec in E2.
        destruct (IH3 H) as [g Hg|g c Hg Hc].
        -- apply blank_gap. constructor; auto.
        -- apply (blank_open (a :: g) c); auto. constructor; auto.
    + intros H. simpl in H. destruct (beq a x0a || beq a x0d) eqn:E1.
      * right. exists [], a, l. split; [intros ? []|]. split; [apply eol_spec; auto|]. split; auto.
      * assert (N : ~ eol_byte a) by (intros K; apply eol_spec in K; congruence).
        destruct (IH4 H) as [M|(c & eol & r & Hc & He & Hr & ->)].
        -- left. intros b [<-|Hb]; auto.
        -- right. exists (a :: c), eol, r. split; auto. intros b [<-|Hb]; auto.
Qed.

Lemma p_ws_gap : forall l b r, p_ws l = b :: r -> exists g, gap g /\ l = g ++ b :: r.
Proof. intros l. apply p_ws_split. Qed.

Lemma blank_spec : forall l, p_ws l = [] <-> blank l.
Proof.
  intros l; split; [apply p_ws_split|].
  intros [g Hg|g c Hg Hc].
  - rewrite <- (app_nil_r g). rewrite gap_ws_app; auto.
  - rewrite gap_ws_app; auto. simpl. apply p_cm_open; auto.
Qed.

(** ** Digits *)
Lemma hexdigit_spec : forall b v, hexdigit b v <-> is_hex b = true /\ hexval b = Z.of_nat v.
Proof.
  intros b v; split.
  - unfold hexdigit, digit. intros H.
    do 16 (destruct v as [|v]; [destruct H as [H|H]; injection H as <-; split; reflexivity|]).
    destruct H as [H|H]; destruct v; discriminate.
  - intros [H E]. assert (v = Z.to_nat (hexval b)) by lia. subst v. clear E. revert H.
    destruct b; intros H; try discriminate; first [left; reflexivity | right; reflexivity].
Qed.
Lemma decdigit_spec : forall b v, decdigit b v <-> is_digit b = true /\ bv b - 48 = Z.of_nat v.
Proof.
  intros b v; split.
  - unfold decdigit, digit. intros H.
    do 10 (destruct v as [|v]; [injection H as <-; split; reflexivity|]).
    destruct v; discriminate.
  - intros [H E]. assert (v = Z.to_nat (bv b - 48)) by lia. subst v. clear E. revert H.
    destruct b; intros H; try discriminate; reflexivity.
Qed.
Lemma octdigit_spec : forall b v, octdigit b v <-> is_octal b = true /\ bv b - 48 = Z.of_nat v.
Proof.
  intros b v; split.
  - unfold octdigit, digit. intros H.
    do 8 (destruct v as [|v]; [injection H as <-; split; reflexivity|]).
    destruct v; discriminate.
  - intros [H E]. assert (v = Z.to_nat (bv b - 48)) by lia. subst v. clear E. revert H.
    destruct b; intros H; try discriminate; reflexivity.
Qed.
Lemma octdigit_lt : forall b v, octdigit b v -> (v < 8)%nat.
Proof.
  unfold octdigit, digit. intros b v H. change 8%nat with (List.length (lit "01234567")).
  apply nth_error_Some. congruence.
Qed.
Lemma hexdigit_lt : forall b v, hexdigit b v -> (v < 16)%nat.
Proof.
  unfold hexdigit, digit. intros b v [H|H].
  - change 16%nat with (List.length (lit "0123456789abcdef")). apply nth_error_Some. congruence.
  - change 16%nat with (List.length (lit "0123456789ABCDEF")). apply nth_error_Some. congruence.
Qed.
Lemma decdigit_lt : forall b v, decdigit b v -> (v < 10)%nat.
Proof.
  unfold decdigit, digit. intros b v H. change 10%nat with (List.length (lit "0123456789")).
  apply nth_error_Some. congruence.
Qed.

Lemma no_hexdigit : forall b, (forall v, ~ hexdigit b v) -> is_hex b = false.
Proof.
  intros b H. destruct (is_hex b) eqn:E; auto. exfalso.
  assert (R : 0 <= hexval b). { revert E. destruct b; intros E; try discriminate; vm_compute; discriminate. }
  apply (H (Z.to_nat (hexval b))). apply hexdigit_spec. split; auto. lia.
Qed.
Lemma no_octdigit : forall b, (forall v, ~ octdigit b v) -> is_octal b = false.
Proof.
  intros b H. destruct (is_octal b) eqn:E; auto. exfalso.
  apply (H (Z.to_nat (bv b - 48))). apply octdigit_spec. split; auto.
  unfold is_octal in E. apply andb_true_iff in E. destruct E as [E _]. apply Z.leb_le in E. lia.
Qed.
Lemma starts_octal_false : forall c t, ~ starts_with_octal (c :: t) -> is_octal c = false.
Proof. intros c t H. apply no_octdigit. intros v K. apply H. exists c, t, v. auto. Qed.

Lemma zb_value : forall w z, bv w = z -> zb z = w.
Proof. intros w z <-. apply zb_bv. Qed.

(** ** Strings *)
Definition esc_msgs (k : nat) : list msg := repeat UnnecessaryEscapeString k.

Lemma str_msg_count : forall w j, code_count (lit "\()") w j -> str_msg w = esc_msgs j.
Proof.
  intros w j H. unfold str_msg.
  assert (E : string_needless w = true <-> needless (lit "\()") w).
  { unfold string_needless, needless. rewrite !andb_true_iff, !negb_true_iff, !Z.leb_le, !beq_neq.
    change (lit "\()") with ["\"%byte; "("%byte; ")"%byte]. simpl. intuition congruence. }
  destruct H as [H|H].
  - destruct (string_needless w); [tauto|reflexivity].
  - rewrite (proj2 E H). reflexivity.
Qed.

Lemma esc_letter_spec : forall c b, esc_letter c b ->
  beq c x0a = false /\ beq c x0d = false /\ is_octal c = false /\ unescape c = b.
Proof. destruct 1; repeat split; reflexivity. Qed.
Lemma unescape_other : forall c, (forall b, ~ esc_letter c b) -> unescape c = c.
Proof.
  intros c H. unfold unescape.
  repeat match goal with |- context [beq c ?x] => destruct (beq c x) eqn:? end; auto; exfalso;
  match goal with E : beq c _ = true |- _ => apply beq_eq in E; subst c; eapply H; constructor end.
Qed.

Lemma octal_eol : forall a x, octdigit a x -> beq a x0a = false /\ beq a x0d = false /\ is_octal a = true.
Proof.
  intros a x H. apply octdigit_spec in H. destruct H as [H _]. revert H.
  destruct a; intros H; try discriminate; repeat split.
Qed.

Lemma oct1 : forall a x, octdigit a x -> octval [a] = Z.of_nat x.
Proof. intros a x H. apply octdigit_spec in H. unfold octval. simpl. lia. Qed.
Lemma oct2 : forall a b x y, octdigit a x -> octdigit b y -> octval [a; b] = Z.of_nat (8 * x + y).
Proof. intros a b x y H K. apply octdigit_spec in H. apply octdigit_spec in K. unfold octval. cbn [fold_left]. lia. Qed.
Lemma oct3 : forall a b c x y z, octdigit a x -> octdigit b y -> octdigit c z ->
  octval [a; b; c] = Z.of_nat (64 * x + 8 * y + z).
Proof.
  intros a b c x y z H K L. apply octdigit_spec in H. apply octdigit_spec in K. apply octdigit_spec in L.
  unfold octval. cbn [fold_left]. lia.
Qed.

(** [out] over a whole prefix *)
Definition outs (ms : list msg) (v : bytes) (x : (bytes * bytes) * list msg) : (bytes * bytes) * list msg :=
  let '((v', r), ms') := x in ((v ++ v', r), ms ++ ms').
Lemma outs_out : forall ms1 b ms2 v x, out ms1 b (outs ms2 v x) = outs (ms1 ++ ms2) (b :: v) x.
Proof. intros ms1 b ms2 v [[v' r] ms']. unfold out, outs. rewrite app_assoc. reflexivity. Qed.
Lemma outs_outs : forall m1 v1 m2 v2 x, outs m1 v1 (outs m2 v2 x) = outs (m1 ++ m2) (v1 ++ v2) x.
Proof. intros m1 v1 m2 v2 [[v' r] ms']. unfold outs. rewrite !app_assoc. reflexivity. Qed.
Lemma outs_nil : forall x, outs [] [] x = x.
Proof. intros [[v r] ms]; reflexivity. Qed.

(** continuations that cannot be mistaken for part of an escape *)
Definition solid (l : bytes) : Prop := exists b r, l = b :: r /\ is_octal b = false /\ beq b x0a = false.
Lemma solid_close : forall l, solid (")"%byte :: l).
Proof. intros l. exists ")"%byte, l. split; [reflexivity|split; reflexivity]. Qed.

Lemma str_body_p : forall t v k, str_body t v k -> forall opn l, 1 <= opn -> solid l ->
  p_str opn (t ++ l) = outs (esc_msgs k) v (p_str opn l).
Proof.
  induction 1 as
   [| b t v k N1 N2 N3 N4 Hb IH
    | t1 v1 k1 t2 v2 k2 H1 IH1 H2 IH2
    | c b t v k He Hb IH
    | c t v k Ne No Nl Hb IH
    | a b c x y z w t v j k Ha Hb' Hc Hw Hj Ht IH
    | a b x y w t v j k Ha Hb' Hn Hw Hj Ht IH
    | a x w t v j k Ha Hn Hw Hj Ht IH
    | t v k Ht IH | t v k Ht IH | t v k Hn Ht IH ]; intros opn l Ho Hl.
  - rewrite outs_nil. reflexivity.
  - change ((b :: t) ++ l) with (b :: (t ++ l)). rewrite p_str_cons.
    apply beq_neq in N1, N2, N3. rewrite N1, N2, N3. cbv zeta.
    destruct (opn =? 0) eqn:E; [apply Z.eqb_eq in E; lia|].
    rewrite IH by (auto; lia). rewrite outs_out. reflexivity.
  - replace (("("%byte :: t1 ++ ")"%byte :: t2) ++ l)
      with ("("%byte :: (t1 ++ ")"%byte :: (t2 ++ l))) by (simpl; rewrite <- app_assoc; reflexivity).
    rewrite p_str_cons. change (beq "("%byte "\"%byte) with false. change (beq "("%byte "("%byte) with true.
    cbv zeta iota. destruct (opn + 1 =? 0) eqn:E; [apply Z.eqb_eq in E; lia|].
    rewrite IH1 by (try lia; apply solid_close). rewrite (p_str_cons (opn + 1)).
    change (beq ")"%byte "\"%byte) with false. change (beq ")"%byte "("%byte) with false.
    change (beq ")"%byte ")"%byte) with true. cbv zeta iota.
    replace (opn + 1 - 1) with opn by lia.
    destruct (opn =? 0) eqn:E2; [apply Z.eqb_eq in E2; lia|].
    rewrite IH2 by (auto; lia). rewrite !outs_out, outs_outs.
    unfold esc_msgs. rewrite repeat_app. reflexivity.
  - change (("\"%byte :: c :: t) ++ l) with ("\"%byte :: c :: (t ++ l)).
    rewrite p_str_cons. rewrite beq_refl. destruct (esc_letter_spec _ _ He) as (-> & -> & -> & ->).
    rewrite IH by (auto; lia). rewrite outs_out. reflexivity.
  - change (("\"%byte :: c :: t) ++ l) with ("\"%byte :: c :: (t ++ l)).
    rewrite p_str_cons. rewrite beq_refl. apply eol_false in Nl. apply orb_false_iff in Nl.
    destruct Nl as [-> ->]. rewrite (no_octdigit _ No). rewrite (unescape_other _ Ne).
    rewrite IH by (auto; lia). rewrite outs_out. reflexivity.
  - change (("\"%byte :: a :: b :: c :: t) ++ l)
      with ("\"%byte :: a :: b :: c :: (t ++ l)).
    rewrite p_str_cons. rewrite beq_refl. destruct (octal_eol _ _ Ha) as (-> & -> & ->).
    destruct (octal_eol _ _ Hb') as (_ & _ & ->). destruct (octal_eol _ _ Hc) as (_ & _ & ->).
    rewrite (oct3 _ _ _ _ _ _ Ha Hb' Hc). unfold oct. rewrite (oct3 _ _ _ _ _ _ Ha Hb' Hc).
    rewrite (zb_value _ _ Hw). pose proof (bv_range w).
    destruct (Z.of_nat (64 * x + 8 * y + z) <=? 255) eqn:E; [|apply Z.leb_gt in E; lia].
    rewrite (str_msg_count _ _ Hj). rewrite IH by (auto; lia). rewrite outs_out.
    unfold esc_msgs. rewrite repeat_app. reflexivity.
  - assert (NX : exists c r, t ++ l = c :: r /\ is_octal c = false).
    { destruct t as [|c t]; [destruct Hl as (c & r & -> & Q1 & Q2); exists c, r; auto|]. exists c, (t ++ l). split; auto.
      eapply starts_octal_false; eauto. }
    destruct NX as (c & r & EX & NO).
    change (("\"%byte :: a :: b :: t) ++ l) with ("\"%byte :: a :: b :: (t ++ l)).
    rewrite p_str_cons. rewrite beq_refl. destruct (octal_eol _ _ Ha) as (-> & -> & ->).
    destruct (octal_eol _ _ Hb') as (_ & _ & ->). rewrite EX, NO, <- EX.
    unfold oct. rewrite (oct2 _ _ _ _ Ha Hb'). rewrite (zb_value _ _ Hw).
    rewrite (str_msg_count _ _ Hj). rewrite IH by (auto; lia). rewrite outs_out.
    unfold esc_msgs. rewrite repeat_app. reflexivity.
  - assert (NX : exists c r, t ++ l = c :: r /\ is_octal c = false).
    { destruct t as [|c t]; [destruct Hl as (c & r & -> & Q1 & Q2); exists c, r; auto|]. exists c, (t ++ l). split; auto.
      eapply starts_octal_false; eauto. }
    destruct NX as (c & r & EX & NO).
    change (("\"%byte :: a :: t) ++ l) with ("\"%byte :: a :: (t ++ l)).
    rewrite p_str_cons. rewrite beq_refl. destruct (octal_eol _ _ Ha) as (-> & -> & ->).
    rewrite EX, NO, <- EX.
    unfold oct. rewrite (oct1 _ _ Ha). rewrite (zb_value _ _ Hw).
    rewrite (str_msg_count _ _ Hj). rewrite IH by (auto; lia). rewrite outs_out.
    unfold esc_msgs. rewrite repeat_app. reflexivity.
  - change (("\"%byte :: x0a :: t) ++ l) with ("\"%byte :: x0a :: (t ++ l)).
    rewrite p_str_cons. rewrite beq_refl. change (beq x0a x0a) with true. cbv iota. apply IH; auto.
  - change (("\"%byte :: x0d :: x0a :: t) ++ l) with ("\"%byte :: x0d :: x0a :: (t ++ l)).
    rewrite p_str_cons. rewrite beq_refl. change (beq x0d x0a) with false. change (beq x0d x0d) with true.
    change (beq x0a x0a) with true. cbv iota. apply IH; auto.
  - assert (NX : exists c r, t ++ l = c :: r /\ beq c x0a = false).
    { destruct t as [|c t]; [destruct Hl as (c & r & -> & Q1 & Q2); exists c, r; auto|]. exists c, (t ++ l). split; auto.
      apply beq_neq. intros ->. apply Hn. exists t. reflexivity. }
    destruct NX as (c & r & EX & NO).
    change (("\"%byte :: x0d :: t) ++ l) with ("\"%byte :: x0d :: (t ++ l)).
    rewrite p_str_cons. rewrite beq_refl. change (beq x0d x0a) with false. change (beq x0d x0d) with true.
    cbv iota. rewrite EX, NO, <- EX. apply IH; auto.
Qed.

Lemma str_text_p : forall t v k l, str_body t v k ->
  p_str 1 (t ++ ")"%byte :: l) = ((v, l), esc_msgs k).
Proof.
  intros t v k l H. rewrite (str_body_p _ _ _ H) by (try lia; apply solid_close). rewrite p_str_cons.
  change (beq ")"%byte "\"%byte) with false. change (beq ")"%byte "("%byte) with false.
  change (beq ")"%byte ")"%byte) with true. cbv zeta iota. change (1 - 1 =? 0) with true. cbv iota.
  unfold outs. rewrite !app_nil_r. reflexivity.
Qed.

(** every byte string can be written, without superfluous codes *)
Lemma octdigit_exists : forall x, (x < 8)%nat -> exists b, octdigit b x.
Proof.
  intros x H. unfold octdigit, digit. destruct (nth_error (lit "01234567") x) eqn:E; eauto.
  apply nth_error_None in E. simpl in E. lia.
Qed.
Lemma byte_octal : forall w, exists x y z, (x < 8 /\ y < 8 /\ z < 8)%nat /\ bv w = Z.of_nat (64 * x + 8 * y + z).
Proof.
  intros w. pose proof (bv_range w) as R.
  exists (Z.to_nat (bv w / 64)), (Z.to_nat (bv w / 8 mod 8)), (Z.to_nat (bv w mod 8)).
  Z.div_mod_to_equations. lia.
Qed.
Lemma str_writable : forall v, exists t, str_body t v 0.
Proof.
  induction v as [|w v (t & IH)]; [exists []; constructor|].
  destruct (beq w "\"%byte) eqn:E1.
  { apply beq_eq in E1; subst. exists ("\"%byte :: "\"%byte :: t). apply sb_letter; auto. constructor. }
  destruct (beq w "("%byte) eqn:E2.
  { apply beq_eq in E2; subst. exists ("\"%byte :: "("%byte :: t). apply sb_letter; auto. constructor. }
  destruct (beq w ")"%byte) eqn:E3.
  { apply beq_eq in E3; subst. exists ("\"%byte :: ")"%byte :: t). apply sb_letter; auto. constructor. }
  destruct (beq w x0d) eqn:E4.
  { apply beq_eq in E4; subst. exists ("\"%byte :: "r"%byte :: t). apply sb_letter; auto. constructor. }
  exists (w :: t). apply beq_neq in E1, E2, E3, E4. constructor; auto.
Qed.

(** ** Hexadecimal strings *)
Definition hex_msgs (k : nat) : list msg := repeat InvalidHexStringChar k.

Lemma p_hex_cons : forall c1 b r, p_hex c1 (b :: r) =
      if beq b "%"%byte then p_hexcm c1 r
      else if is_ws b then p_hex c1 r
      else if beq b ">"%byte then ((hex_fin c1, r), [])
      else if negb (is_hex b) then add_msg [InvalidHexStringChar] (p_hex c1 r)
      else match c1 with
           | None => p_hex (Some b) r
           | Some a => out [] (hex2 a b) (p_hex None r)
           end.
Proof. reflexivity. Qed.

Lemma hex_not_special : forall b, is_hex b = true ->
  beq b "%"%byte = false /\ is_ws b = false /\ beq b ">"%byte = false.
Proof. intros b H. revert H. destruct b; intros H; try discriminate; repeat split; reflexivity. Qed.

Lemma hex2_value : forall a b x y w, hexdigit a x -> hexdigit b y -> bv w = Z.of_nat (16 * x + y) -> hex2 a b = w.
Proof.
  intros a b x y w Ha Hb Hw. apply hexdigit_spec in Ha. apply hexdigit_spec in Hb.
  unfold hex2. apply zb_value. lia.
Qed.

Lemma hex_text_aux : forall t ds k, hex_digits t ds k -> forall l,
  (forall v, hex_pairs ds v -> p_hex None (t ++ ">"%byte :: l) = ((v, l), hex_msgs k)) /\
  (forall a x v, hexdigit a x -> hex_pairs (x :: ds) v ->
     p_hex (Some a) (t ++ ">"%byte :: l) = ((v, l), hex_msgs k)).
Proof.
  induction 1 as [|b t ds k Hb Ht IH|b t ds k Nh Nw Nc Ng Ht IH|b d t ds k Hd Ht IH]; intros l.
  - split.
    + intros v Hv. inversion Hv; subst. reflexivity.
    + intros a x v Ha Hv. inversion Hv as [|x' w Hw| ]; subst.
      change ([] ++ ">"%byte :: l) with (">"%byte :: l). rewrite p_hex_cons.
      change (beq ">"%byte "%"%byte) with false. change (is_ws ">"%byte) with false.
      change (beq ">"%byte ">"%byte) with true. cbv iota. unfold hex_fin.
      rewrite (hex2_value a "0" x 0 w); auto.
      * left; reflexivity.
      * rewrite Hw. f_equal. lia.
  - specialize (IH l). destruct IH as [I1 I2].
    assert (E : forall c, p_hex c ((b :: t) ++ ">"%byte :: l) = p_hex c (t ++ ">"%byte :: l)).
    { intros c. change ((b :: t) ++ ">"%byte :: l) with (b :: (t ++ ">"%byte :: l)). rewrite p_hex_cons.
      rewrite (ws_not_comment _ Hb). rewrite (proj2 (is_ws_spec b) Hb). reflexivity. }
    split; intros; rewrite E; eauto.
  - specialize (IH l). destruct IH as [I1 I2].
    assert (E : forall c v, p_hex c (t ++ ">"%byte :: l) = ((v, l), hex_msgs k) ->
                p_hex c ((b :: t) ++ ">"%byte :: l) = ((v, l), hex_msgs (S k))).
    { intros c v E. change ((b :: t) ++ ">"%byte :: l) with (b :: (t ++ ">"%byte :: l)). rewrite p_hex_cons.
      apply beq_neq in Nc, Ng. rewrite Nc, Ng. rewrite (is_ws_false _ Nw). rewrite (no_hexdigit _ Nh).
      simpl negb. cbv iota. rewrite E. reflexivity. }
    split; intros; apply E; eauto.
  - specialize (IH l). destruct IH as [I1 I2].
    assert (HX : is_hex b = true) by (apply hexdigit_spec in Hd; tauto).
    destruct (hex_not_special _ HX) as (Q1 & Q2 & Q3).
    split.
    + intros v Hv. change ((b :: t) ++ ">"%byte :: l) with (b :: (t ++ ">"%byte :: l)). rewrite p_hex_cons.
      rewrite Q1, Q2, Q3, HX. simpl negb. cbv iota. eapply I2; eauto.
    + intros a x v Ha Hv. change ((b :: t) ++ ">"%byte :: l) with (b :: (t ++ ">"%byte :: l)). rewrite p_hex_cons.
      rewrite Q1, Q2, Q3, HX. simpl negb. cbv iota.
      inversion Hv as [| |x' y' w ds' v' Hw Hv']; subst.
      rewrite (I1 _ Hv'). rewrite (hex2_value _ _ _ _ _ Ha Hd Hw). reflexivity.
Qed.

Lemma hex_text_p : forall t ds k v l, hex_digits t ds k -> hex_pairs ds v ->
  p_hex None (t ++ ">"%byte :: l) = ((v, l), hex_msgs k).
Proof. intros t ds k v l H Hv. apply (hex_text_aux _ _ _ H); auto. Qed.

Lemma hexdigit_exists : forall x, (x < 16)%nat -> exists b, hexdigit b x.
Proof.
  intros x H. unfold hexdigit, digit. destruct (nth_error (lit "0123456789abcdef") x) eqn:E; eauto.
  apply nth_error_None in E. simpl in E. lia.
Qed.
Lemma byte_hex : forall w, exists x y, (x < 16 /\ y < 16)%nat /\ bv w = Z.of_nat (16 * x + y).
Proof.
  intros w. pose proof (bv_range w) as R.
  exists (Z.to_nat (bv w / 16)), (Z.to_nat (bv w mod 16)). Z.div_mod_to_equations. lia.
Qed.
Lemma hex_writable : forall v, exists t ds, hex_digits t ds 0 /\ hex_pairs ds v.
Proof.
  induction v as [|w v (t & ds & H1 & H2)]; [exists [], []; split; constructor|].
  destruct (byte_hex w) as (x & y & (Hx & Hy) & Hw).
  destruct (hexdigit_exists x Hx) as (a & Ha). destruct (hexdigit_exists y Hy) as (b & Hb).
  exists (a :: b :: t), (x :: y :: ds). split.
  - apply hd_digit; auto. apply hd_digit; auto.
  - apply hp_pair; auto.
Qed.

(** ** Names *)
Definition name_msgs (k : nat) : list msg := repeat UnnecessaryEscapeName k.

Lemma name_msg_count : forall w j, code_count (lit "#()<>[]/%") w j -> name_msg w = name_msgs j.
Proof.
  intros w j H. unfold name_msg.
  assert (E : name_needless w = true <-> needless (lit "#()<>[]/%") w).
  { unfold name_needless, needless. rewrite !andb_true_iff, !negb_true_iff, !Z.leb_le, beq_neq.
    change (lit "#()<>[]/%") with ("#"%byte :: lit "()<>[]/%").
    split.
    - intros [[[H1 H2] H3] H4]. split; auto. intros [K|K]; [congruence|].
      apply is_delim_spec in K. congruence.
    - intros [[H1 H2] H3]. repeat split; auto.
      + intros K. apply H3. left; auto.
      + apply is_delim_false. intros K. apply H3. right; auto. }
  destruct H as [H|H].
  - destruct (name_needless w); [tauto|reflexivity].
  - rewrite (proj2 E H). reflexivity.
Qed.

Lemma p_name_cons : forall b r, p_name (b :: r) =
      if is_delim b || is_ws b then (([], b :: r), [])
      else if beq b "#"%byte then
        match r with
        | [] => out (name_msg (hex2 "0" "0")) (hex2 "0" "0") (([], []), [])
        | a :: r1 =>
            if is_hex a then
              match r1 with
              | [] => out (name_msg (hex2 a "0")) (hex2 a "0") (([], []), [])
              | c :: r2 =>
                  if is_hex c then out (name_msg (hex2 a c)) (hex2 a c) (p_name r2)
                  else out (InvalidNameEscapeChar :: name_msg (hex2 a "0")) (hex2 a "0") (p_name r1)
              end
            else out (InvalidNameEscapeChar :: name_msg (hex2 "0" "0")) (hex2 "0" "0") (p_name r)
        end
      else out [] b (p_name r).
Proof. reflexivity. Qed.

Lemma ends_token_split : forall r, ends_token r -> r = [] \/ exists b r', r = b :: r' /\ is_delim b || is_ws b = true.
Proof.
  intros r [->|(b & r' & -> & [H|H])]; auto; right; exists b, r'; split; auto; apply orb_true_iff.
  - right. apply is_ws_spec; auto.
  - left. apply is_delim_spec; auto.
Qed.

Lemma name_text_p : forall t v k l, name_body t v k -> ends_token l ->
  p_name (t ++ l) = ((v, l), name_msgs k).
Proof.
  induction 1 as [|b t v k Hr Hn Ht IH|a b x y w t v j k Ha Hb Hw Hj Ht IH]; intros He.
  - destruct (ends_token_split _ He) as [->|(b & r & -> & E)]; [reflexivity|].
    simpl app. rewrite p_name_cons, E. reflexivity.
  - change ((b :: t) ++ l) with (b :: (t ++ l)). rewrite p_name_cons.
    destruct Hr as [R1 R2]. rewrite (is_ws_false _ R1), (is_delim_false _ R2). simpl orb. cbv iota.
    apply beq_neq in Hn. rewrite Hn. rewrite IH; auto.
  - change (("#"%byte :: a :: b :: t) ++ l) with ("#"%byte :: a :: b :: (t ++ l)). rewrite p_name_cons.
    change (is_delim "#"%byte || is_ws "#"%byte) with false. rewrite beq_refl. cbv iota.
    assert (X1 : is_hex a = true) by (apply hexdigit_spec in Ha; tauto).
    assert (X2 : is_hex b = true) by (apply hexdigit_spec in Hb; tauto).
    rewrite X1, X2. rewrite (hex2_value _ _ _ _ _ Ha Hb Hw). rewrite (name_msg_count _ _ Hj).
    rewrite IH; auto. unfold out, name_msgs. rewrite repeat_app. reflexivity.
Qed.

Lemma name_writable : forall v, exists t, name_body t v 0.
Proof.
  induction v as [|w v (t & IH)]; [exists []; constructor|].
  destruct (is_ws w || is_delim w || beq w "#"%byte) eqn:E.
  - destruct (byte_hex w) as (x & y & (Hx & Hy) & Hw).
    destruct (hexdigit_exists x Hx) as (a & Ha). destruct (hexdigit_exists y Hy) as (b & Hb).
    exists ("#"%byte :: a :: b :: t). apply (nb_escape a b x y w t v 0 0); auto.
    apply cc_needed. intros [N1 N2]. apply N2.
    change (lit "#()<>[]/%") with ("#"%byte :: lit "()<>[]/%").
    apply orb_true_iff in E. destruct E as [E|E].
    + apply orb_true_iff in E. destruct E as [E|E].
      * exfalso. revert E N1. destruct w; intros E; try discriminate; vm_compute; intuition congruence.
      * right. apply is_delim_spec. auto.
    + left. apply beq_eq in E. auto.
  - apply orb_false_iff in E. destruct E as [E E3]. apply orb_false_iff in E. destruct E as [E1 E2].
    exists (w :: t). constructor; auto.
    + split; intros K; [apply is_ws_spec in K|apply is_delim_spec in K]; congruence.
    + apply beq_neq; auto.
Qed.

(** ** Keywords *)
Lemma kw_text_p : forall t l, (forall c, In c t -> regular_byte c) -> ends_token l -> p_kw (t ++ l) = (t, l).
Proof.
  induction t as [|b t IH]; intros l H He.
  - destruct (ends_token_split _ He) as [->|(b & r & -> & E)]; [reflexivity|].
    simpl. rewrite orb_comm in E. rewrite E. reflexivity.
  - simpl. destruct (H b (or_introl eq_refl)) as [R1 R2].
    rewrite (is_ws_false _ R1), (is_delim_false _ R2). simpl.
    rewrite IH; auto. intros c Hc. apply H. right; auto.
Qed.
