(** SpecNumP.v -- the plain reader on number and reference tokens. *)
From Verif Require Import Base BaseP Msg Num NumP Lexer Obj Plain LexerP SpecLex SpecLexP SpecObj.
From Coq Require Import Strings.String Floats.SpecFloat.

Definition dec_from (v : Z) (ds : list nat) : Z := fold_left (fun v d => 10 * v + Z.of_nat d) ds v.

Lemma dec_from_ge : forall ds v, 0 <= v -> v <= dec_from v ds.
Proof.
  induction ds as [|d ds IH]; intros v H; unfold dec_from; cbn [fold_left]; [lia|].
  specialize (IH (10 * v + Z.of_nat d)). unfold dec_from in IH. lia.
Qed.

(** where a run of digits ends *)
Definition no_digit (l : bytes) : Prop := match l with [] => True | b :: _ => is_digit b = false end.
Definition no_point (l : bytes) : Prop := match l with [] => True | b :: _ => beq b "."%byte = false end.

Lemma p_digits_text : forall t ds, dec_digits t ds -> forall v l, no_digit l ->
  p_digits (wrap64 v) (t ++ l) = (wrap64 (dec_from v ds), l).
Proof.
  induction 1 as [|b d t ds Hb Ht IH]; intros v l Hl.
  - simpl. destruct l as [|b l]; [reflexivity|]. simpl in *. rewrite Hl. reflexivity.
  - simpl. apply decdigit_spec in Hb. destruct Hb as [Q1 Q2]. rewrite Q1, Q2.
    replace (wrap64 (wrap64 v * 10 + Z.of_nat d)) with (wrap64 (10 * v + Z.of_nat d)).
    + apply IH; auto.
    + rewrite (Z.mul_comm 10 v). rewrite <- (wrap64_add_l (wrap64 v * 10)).
      rewrite wrap64_mul_l. rewrite wrap64_add_l. reflexivity.
Qed.

Lemma digit_not_ws : forall b, is_digit b = true -> beq b "%"%byte = false /\ is_ws b = false.
Proof. intros b. destruct b; intros H; try discriminate; split; reflexivity. Qed.

Lemma p_ws_id : forall b r, beq b "%"%byte = false -> is_ws b = false -> p_ws (b :: r) = b :: r.
Proof. intros b r H1 H2. simpl. rewrite H1, H2. reflexivity. Qed.

Lemma nat_text_nonneg : forall t n, nat_text t n -> 0 <= n.
Proof. intros t n (ds & _ & _ & <-). apply (dec_from_ge ds 0). lia. Qed.

Lemma nat_text_cons : forall t n, nat_text t n -> exists b d r ds, t = b :: r /\ decdigit b d /\
  dec_digits r ds /\ n = dec_from (Z.of_nat d) ds.
Proof.
  intros t n (ds & H & Hn & <-). destruct H as [|b d t ds Hb Ht]; [congruence|].
  exists b, d, t, ds. split; [auto|]. split; [auto|]. split; [auto|]. reflexivity.
Qed.

Lemma nat_text_digits : forall t n, nat_text t n -> forall b, In b t -> is_digit b = true.
Proof.
  intros t n (ds & H & _). induction H as [|b d t ds Hb Ht IH]; intros c [].
  - subst c. apply decdigit_spec in Hb. tauto.
  - auto.
Qed.

Lemma p_int_text : forall g t n l, gap g -> nat_text t n -> no_digit l ->
  p_int (g ++ t ++ l) = ((wrap64 n, true), l).
Proof.
  intros g t n l Hg Ht Hl. unfold p_int. rewrite gap_ws_app by auto.
  destruct (nat_text_cons _ _ Ht) as (b & d & r & ds & -> & Hb & Hr & ->).
  apply decdigit_spec in Hb. destruct Hb as [Q1 Q2].
  destruct (digit_not_ws _ Q1) as [W1 W2].
  change ((b :: r) ++ l) with (b :: (r ++ l)). rewrite p_ws_id by auto. rewrite Q1, Q2.
  assert (E : Z.of_nat d = wrap64 (Z.of_nat d)).
  { rewrite wrap64_small; auto. assert (is_digit b = true) by auto. unfold is_digit in Q1.
    apply andb_true_iff in Q1. rewrite !Z.leb_le in Q1. unfold two63. lia. }
  pose proof (p_digits_text _ _ Hr (Z.of_nat d) l Hl) as P. rewrite <- E in P. rewrite P. reflexivity.
Qed.

(** conversely *)
Lemma dec_digits_exist : forall l, (forall b, In b l -> is_digit b = true) -> exists ds, dec_digits l ds.
Proof.
  induction l as [|b l IH]; intros H; [exists []; constructor|].
  destruct IH as (ds & Hd); [intros; apply H; right; auto|].
  assert (D : is_digit b = true) by (apply H; left; auto).
  exists (Z.to_nat (bv b - 48) :: ds). constructor; auto. apply decdigit_spec. split; auto.
  unfold is_digit in D. apply andb_true_iff in D. rewrite !Z.leb_le in D. lia.
Qed.
Lemma digits_split : forall l, exists t r, l = t ++ r /\ (forall b, In b t -> is_digit b = true) /\ no_digit r.
Proof.
  induction l as [|b l (t & r & -> & H1 & H2)]; [exists [], []; simpl; tauto|].
  destruct (is_digit b) eqn:E.
  - exists (b :: t), r. split; auto. split; auto. intros c [<-|Hc]; auto.
  - exists [], (b :: t ++ r). simpl. tauto.
Qed.
Lemma p_int_inv : forall l v r, p_int l = ((v, true), r) ->
  exists g t n, gap g /\ nat_text t n /\ l = g ++ t ++ r /\ v = wrap64 n /\ no_digit r.
Proof.
  intros l v r H. unfold p_int in H. destruct (p_ws l) as [|b r0] eqn:E; [discriminate|].
  destruct (p_ws_gap _ _ _ E) as (g & Hg & ->).
  destruct (is_digit b) eqn:D; [|discriminate].
  destruct (digits_split r0) as (t & r1 & -> & H1 & H2).
  destruct (dec_digits_exist (b :: t)) as (ds & Hd). { intros c [<-|Hc]; auto. }
  exists g, (b :: t), (dec_value ds).
  assert (N : nat_text (b :: t) (dec_value ds)).
  { exists ds. split; auto. split; auto. inversion Hd; discriminate. }
  pose proof (p_int_text [] (b :: t) _ r1 gap_nil N H2) as P. simpl app in P.
  unfold p_int in P. destruct (digit_not_ws _ D) as [W1 W2]. rewrite p_ws_id in P by auto.
  rewrite D in P. rewrite P in H. injection H as <- <-. auto.
Qed.

(** ** The look-ahead for references *)
Definition no_ref (l : bytes) : Prop :=
  snd (fst (p_int l)) = false \/ fst (p_keyword (snd (p_int l))) <> lit "R".

Lemma p_kw_inv : forall l, exists r, l = fst (p_kw l) ++ r /\ r = snd (p_kw l) /\ ends_token r /\
  forall c, In c (fst (p_kw l)) -> regular_byte c.
Proof.
  induction l as [|b l (r & E & Er & He & Hr)].
  - exists []. simpl. split; auto. split; auto. split; [left; auto|intros c []].
  - simpl. destruct (is_ws b || is_delim b) eqn:K.
    + exists (b :: l). simpl. split; auto. split; auto. split; [|intros c []].
      right. exists b, l. split; auto. apply orb_true_iff in K.
      rewrite is_ws_spec, is_delim_spec in K. auto.
    + destruct (p_kw l) as [k r']. simpl in *. exists r. subst r'.
      split; [congruence|]. split; auto. split; auto.
      intros c [<-|Hc]; auto. apply orb_false_iff in K. destruct K as [K1 K2].
      split; intros X; [apply is_ws_spec in X|apply is_delim_spec in X]; congruence.
Qed.

Lemma R_regular : regular_byte "R"%byte.
Proof. split; intros H; [apply is_ws_spec in H|apply is_delim_spec in H]; discriminate. Qed.

Lemma R_no_digit : forall r, no_digit ("R"%byte :: r).
Proof. reflexivity. Qed.

Lemma gap_no_digit : forall g l, gap g -> no_digit l -> no_digit (g ++ l).
Proof.
  intros g l [|b g' Hb Hg|c eol g' Hc He Hg] Hl; simpl; auto.
  destruct (is_digit b) eqn:E; auto. destruct (digit_not_ws _ E) as [_ W].
  apply is_ws_spec in Hb. congruence.
Qed.

Lemma p_keyword_R : forall l, fst (p_keyword l) = lit "R" ->
  exists g, gap g /\ l = g ++ "R"%byte :: snd (p_keyword l) /\ ends_token (snd (p_keyword l)).
Proof.
  intros l H. unfold p_keyword in *. destruct (p_kw_inv (p_ws l)) as (r & E & Er & He & _).
  rewrite H in E. simpl in E. destruct (p_ws_gap _ _ _ E) as (g & Hg & ->).
  exists g. rewrite <- Er. auto.
Qed.

Lemma ref_tail_spec : forall l, no_ref l <-> forall n r, ~ ref_tail l n r.
Proof.
  intros l. split.
  - intros H n r T. destruct T as [g1 t n g2 r Hg1 Ht Hg2 He].
    assert (P : p_int (g1 ++ t ++ g2 ++ "R"%byte :: r) = ((wrap64 n, true), g2 ++ "R"%byte :: r)).
    { apply p_int_text; auto. apply gap_no_digit; auto. reflexivity. }
    unfold no_ref in H. rewrite P in H. simpl in H. destruct H as [H|H]; [discriminate|].
    apply H. unfold p_keyword. rewrite gap_ws_app by auto. rewrite p_ws_id by reflexivity.
    change ("R"%byte :: r) with (lit "R" ++ r). rewrite (kw_text_p (lit "R") r); auto. intros c [<-|[]]. apply R_regular.
  - intros H. unfold no_ref. destruct (p_int l) as [[v ok] r2] eqn:P. simpl.
    destruct ok; auto. right. intros K. destruct (p_int_inv _ _ _ P) as (g & t & n & Hg & Ht & -> & -> & _).
    destruct (p_keyword_R _ K) as (g2 & Hg2 & E & He). rewrite E in H.
    eapply H. constructor; eauto.
Qed.

(** ** Number tokens *)
Lemma p_num_int_text : forall t ds, dec_digits t ds -> forall v l, no_digit l ->
  p_num_int v (t ++ l) = p_num_int (fold_left (fun v d => num_push v (Z.of_nat d)) ds v) l.
Proof.
  induction 1 as [|b d t ds Hb Ht IH]; intros v l Hl; [reflexivity|].
  apply decdigit_spec in Hb. destruct Hb as [Q1 Q2]. simpl. rewrite Q1, Q2. apply IH; auto.
Qed.
Lemma p_num_real_text : forall t ds, dec_digits t ds -> forall i v l, no_digit l ->
  exists w, p_num_real i v (t ++ l) = (w, l) /\ forall l', no_digit l' -> p_num_real i v (t ++ l') = (w, l').
Proof.
  induction 1 as [|b d t ds Hb Ht IH]; intros i v l Hl.
  - exists v. assert (E : forall l, no_digit l -> p_num_real i v ([] ++ l) = (v, l)); auto.
    intros l' H'. destruct l' as [|c l']; [reflexivity|]. simpl in *. rewrite H'. reflexivity.
  - apply decdigit_spec in Hb. destruct Hb as [Q1 Q2]. simpl. rewrite Q1.
    destruct (IH (i + 1) (num_frac v (bv b - 48) i) l Hl) as (w & E & F). exists w. split; auto.
Qed.

Lemma push_exact : forall ds n, (forall d, In d ds -> (d < 10)%nat) -> 0 <= n -> dec_from n ds <= 2 ^ 53 ->
  fold_left (fun v d => num_push v (Z.of_nat d)) ds (num_of_Z n) = num_of_Z (dec_from n ds).
Proof.
  induction ds as [|d ds IH]; intros n Hd Hn H; [reflexivity|].
  unfold dec_from in *. cbn [fold_left] in *.
  pose proof (dec_from_ge ds (10 * n + Z.of_nat d)) as G. unfold dec_from in G.
  assert (d < 10)%nat by (apply Hd; left; auto).
  rewrite num_push_exact by lia. apply IH; try lia. intros; apply Hd; right; auto.
Qed.

Lemma dec_digits_lt : forall t ds, dec_digits t ds -> forall d, In d ds -> (d < 10)%nat.
Proof.
  induction 1 as [|b d t ds Hb Ht IH]; intros x []; auto. subst x. eapply decdigit_lt; eauto.
Qed.

(** a number stops in front of anything but a digit or a point *)
Lemma ends_number_spec : forall l, ends_number l -> no_digit l /\ no_point l.
Proof.
  intros l [->|(b & r & -> & H)]; [simpl; auto|]. simpl. split.
  - destruct (is_digit b) eqn:E; auto. exfalso. apply H. revert E.
    destruct b; intros E; try discriminate; vm_compute; tauto.
  - apply beq_neq. intros ->. apply H. vm_compute. tauto.
Qed.
Lemma ends_token_number : forall l, ends_token l -> ends_number l.
Proof.
  intros l [->|(b & r & -> & H)]; [left; auto|]. right. exists b, r. split; auto.
  intros K. destruct H as [H|H].
  - apply is_ws_spec in H. simpl in K. repeat destruct K as [<-|K]; try discriminate H; exact K.
  - apply is_delim_spec in H. simpl in K. repeat destruct K as [<-|K]; try discriminate H; exact K.
Qed.

Lemma p_num_int_stop : forall v l, no_digit l -> no_point l -> p_num_int v l = ((v, false), l).
Proof. intros v [|b l] H1 H2; [reflexivity|]. simpl in *. rewrite H1, H2. reflexivity. Qed.

Lemma nat_text_push : forall t n, nat_text t n -> n <= 2 ^ 53 -> forall l, no_digit l -> no_point l ->
  p_num_body num_zero false (t ++ l) = (num_of_Z n, l).
Proof.
  intros t n (ds & Hd & Hn & <-) HB l H1 H2. unfold p_num_body. rewrite (p_num_int_text _ _ Hd) by auto.
  rewrite p_num_int_stop by auto. cbv iota. f_equal.
  rewrite <- num_of_Z_0. rewrite push_exact; auto.
  - eapply dec_digits_lt; eauto.
  - lia.
Qed.

Lemma plain_first : forall b r, is_digit b = true -> p_number (b :: r) = p_num_body num_zero false (b :: r).
Proof.
  intros b r D. destruct (digit_not_ws _ D) as [W1 W2]. unfold p_number. rewrite p_ws_id by auto.
  assert (beq b "-"%byte = false) by (destruct b; try discriminate; reflexivity).
  rewrite H, D. unfold p_num_body. cbn [p_num_int]. rewrite D. reflexivity.
Qed.

(** integers: the value is exact *)
Lemma int_text_p : forall t z l, int_text t z -> - 2 ^ 53 <= z <= 2 ^ 53 -> ends_number l ->
  exists v, p_number (t ++ l) = (v, l) /\ float_is v z /\ num_int v = z /\
    (z <> 0 \/ nat_text t 0 -> v = num_of_Z z).
Proof.
  assert (FI : forall z, 0 <= z <= 2 ^ 53 -> float_is (num_of_Z z) z /\ float_is (num_neg (num_of_Z z)) (- z)).
  { intros z H. destruct (Z.eq_dec z 0) as [->|N]; [split; reflexivity|].
    destruct (num_of_Z_rep z) as (M & E & [A B] & V & ->); [lia|].
    unfold float_is, num_neg, SFopp. simpl negb. rewrite Z2Pos.id by lia. 
    destruct (0 <=? E) eqn:L.
    - apply Z.leb_le in L. pose proof (same_value_ge _ _ _ _ V L) as X. rewrite Z.sub_0_r in X.
      rewrite X. split; ring.
    - apply Z.leb_gt in L. apply same_value_sym in V. pose proof (same_value_ge _ _ _ _ V) as X.
      replace (0 - E) with (- E) in X by lia. rewrite X by lia. split; ring. }
  intros t z l H HB HL. destruct (ends_number_spec _ HL) as [L1 L2].
  destruct H as [t n H|t n H|t n H].
  - pose proof (nat_text_nonneg _ _ H). exists (num_of_Z n).
    split; [|split; [apply FI; lia|split; [apply num_int_of_Z; lia|auto]]].
    rewrite <- (nat_text_push t n H) with (l := l) by (auto; lia).
    destruct (nat_text_cons _ _ H) as (b & d & r & ds & -> & Hb & _).
    apply decdigit_spec in Hb. apply plain_first. tauto.
  - pose proof (nat_text_nonneg _ _ H). exists (num_of_Z n).
    split; [|split; [apply FI; lia|split; [apply num_int_of_Z; lia|auto]]].
    change (p_number (("+"%byte :: t) ++ l)) with (p_num_body num_zero false (t ++ l)).
    rewrite (nat_text_push t n H) by (auto; lia). reflexivity.
  - pose proof (nat_text_nonneg _ _ H). exists (num_neg (num_of_Z n)).
    split; [|split; [apply FI; lia|split]].
    + change (p_number (("-"%byte :: t) ++ l))
        with (let '(v, r) := p_num_body num_zero false (t ++ l) in (num_neg v, r)).
      rewrite (nat_text_push t n H) by (auto; lia). reflexivity.
    + destruct (Z.eq_dec n 0) as [->|]; [reflexivity|].
      rewrite <- num_of_Z_opp by lia. apply num_int_of_Z. lia.
    + intros [N|N]; [symmetry; apply num_of_Z_opp; lia|].
      exfalso. pose proof (nat_text_digits _ _ N "-"%byte (or_introl eq_refl)). discriminate.
Qed.

(** number tokens in general: the value depends on the token only *)
Lemma number_text_p : forall t, number_text t -> exists v, forall l, ends_number l -> p_number (t ++ l) = (v, l).
Proof.
  intros t [sgn a frac da Hs Ha Hf Hn].
  assert (B : forall v0, exists v, forall l, ends_number l -> p_num_body v0 false (a ++ frac ++ l) = (v, l)).
  { intros v0. unfold p_num_body. destruct Hf as [-> | (f & df & Hdf & ->)].
    - eexists. intros l Hl. destruct (ends_number_spec _ Hl) as [L1 L2]. simpl app.
      rewrite (p_num_int_text _ _ Ha) by auto. rewrite p_num_int_stop by auto. reflexivity.
    - destruct (p_num_real_text _ _ Hdf 1 (fold_left (fun v d => num_push v (Z.of_nat d)) da v0) [] I) as (w & _ & W).
      exists w. intros l Hl. destruct (ends_number_spec _ Hl) as [L1 L2].
      rewrite (p_num_int_text _ _ Ha) by reflexivity. cbn [app p_num_int].
      change (is_digit "."%byte) with false. change (beq "."%byte "."%byte) with true. cbv iota. apply W; auto. }
  destruct Hs as [-> | [-> | ->]].
  - destruct (B num_zero) as (v & Hv). exists v. intros l Hl. specialize (Hv l Hl).
    simpl app. rewrite <- app_assoc. destruct a as [|b a].
    + destruct Hf as [-> | (f & df & Hdf & ->)]; [simpl in Hn; congruence|].
      rewrite <- Hv. reflexivity.
    + inversion Ha as [|? d ? ds Hb Ht]; subst. apply decdigit_spec in Hb. destruct Hb as [D _].
      rewrite <- Hv. apply (plain_first b (a ++ frac ++ l) D).
  - destruct (B num_zero) as (v & Hv). exists v. intros l Hl. specialize (Hv l Hl).
    rewrite <- !app_assoc. exact Hv.
  - destruct (B num_zero) as (v & Hv). exists (num_neg v). intros l Hl. specialize (Hv l Hl).
    rewrite <- !app_assoc.
    change (p_number (["-"%byte] ++ a ++ frac ++ l))
      with (let '(v, r) := p_num_body num_zero false (a ++ frac ++ l) in (num_neg v, r)).
    rewrite Hv. reflexivity.
Qed.

Lemma number_text_first : forall t, number_text t -> exists b r, t = b :: r /\
  is_digit b || beq b "+"%byte || beq b "-"%byte || beq b "."%byte = true.
Proof.
  intros t [sgn a frac da Hs Ha Hf Hn].
  destruct Hs as [-> | [-> | ->]].
  - destruct a as [|b a].
    + destruct Hf as [-> | (f & df & Hdf & ->)]; [simpl in Hn; congruence|]. simpl. eauto.
    + inversion Ha as [|? d ? ds Hb Ht]; subst. apply decdigit_spec in Hb. destruct Hb as [D _].
      simpl. exists b, (a ++ frac). rewrite D. auto.
  - simpl. eauto.
  - simpl. eauto.
Qed.

Lemma int_text_number : forall t z, int_text t z -> number_text t.
Proof.
  assert (K : forall t n sign, nat_text t n -> sign = [] \/ sign = ["+"%byte] \/ sign = ["-"%byte] ->
              number_text (sign ++ t)).
  { intros t n sign (ds & Hd & Hn & _) Hs. rewrite <- (app_nil_r t). apply (nt_intro sign t [] ds); auto.
    rewrite app_nil_r. destruct Hd; [congruence|]. destruct sign; discriminate. }
  intros t z [t' n H|t' n H|t' n H].
  - apply (K t' n [] H); auto.
  - apply (K t' n ["+"%byte] H); auto.
  - apply (K t' n ["-"%byte] H); auto.
Qed.
