(** RealReadP.v -- the value of literals with a fraction (C07). *)
From Verif Require Import Base BaseP Msg Reader ReaderP Num NumP Lexer Obj ReadObj Plain LexerP ReadObjP PObjP
  SpecLex SpecLexP SpecObj SpecNumP SpecObjP SpecRead SpecReal ReadP RealP.
From Coq Require Import Strings.String Floats.SpecFloat QArith QArith.Qpower Lqa Lia.
Local Open Scope Z_scope.

Lemma same_value_Q : forall z M E, same_value z 0 M E -> (inject_Z z == inject_Z M * p2 E)%Q.
Proof.
  intros z M E (B & H1 & H2 & H3). 
  assert (X : (inject_Z (z * 2 ^ (0 + B)) == inject_Z (M * 2 ^ (E + B)))%Q) by (rewrite H3; reflexivity).
  rewrite !inject_Z_mult, <- !p2_Z in X by lia. rewrite Z.add_0_l, p2_add, Qmult_assoc in X.
  apply Qmult_inj_r in X; auto. pose proof (p2_pos B). lra.
Qed.

Lemma rep_val : forall v z, rep v z -> exists m e, v = S754_finite false m e /\ (inject_Z (Zpos m) * p2 e == inject_Z z)%Q.
Proof.
  intros v z (M & E & [HM HE] & V & ->). exists (Z.to_pos M), E. split; auto. rewrite Z2Pos.id by lia.
  symmetry. apply same_value_Q; auto.
Qed.

Lemma num_val : forall z, 0 <= z <= 2 ^ 53 -> val (num_of_Z z) (inject_Z z).
Proof.
  intros z H. destruct (Z.eq_dec z 0) as [->|N]; [cbn; reflexivity|].
  destruct (rep_val _ _ (num_of_Z_rep z ltac:(lia))) as (m & e & -> & E). cbn. rewrite E. reflexivity.
Qed.

(** one digit *)
Lemma quotient_near : forall d i, 0 <= d <= 9 -> 1 <= i -> 10 * i <= 2 ^ 53 ->
  near (ndiv (num_of_Z d) (nmul (num_of_Z 10) (num_of_Z i))) (d # Z.to_pos (10 * i)) (p2 (-53)).
Proof.
  intros d i Hd Hi HB.
  assert (RM : rep (nmul (num_of_Z 10) (num_of_Z i)) (10 * i)).
  { apply rep_mul; [apply num_of_Z_rep; lia|apply num_of_Z_rep; lia|lia]. }
  destruct (rep_val _ _ RM) as (m2 & e2 & -> & E2).
  destruct (Z.eq_dec d 0) as [->|N].
  - exists 0%Q. split; [cbn; reflexivity|]. pose proof (p2_pos (-53)).
    assert (Z0 : (0 # Z.to_pos (10 * i) == 0)%Q) by reflexivity. lra.
  - destruct (rep_val _ _ (num_of_Z_rep d ltac:(lia))) as (m1 & e1 & -> & E1).
    destruct (div_near m1 e1 m2 e2 0) as (w & V & W1 & W2); [|lia|].
    + rewrite E1, E2. change (p2 0) with 1%Q. rewrite Qmult_1_l, <- Zle_Qle. lia.
    + exists w. split; auto.
      assert (X : (inject_Z (Zpos m1) * p2 e1 / (inject_Z (Zpos m2) * p2 e2) == d # Z.to_pos (10 * i))%Q).
      { rewrite E1, E2. rewrite Qmake_Qdiv, Z2Pos.id by lia. reflexivity. }
      rewrite X in W1, W2. change (0 - 53) with (-53) in *. auto.
Qed.

Lemma digit_le : forall d i, 0 <= d <= 9 -> 1 <= i -> (0 <= d # Z.to_pos (10 * i) <= 9 # 10)%Q.
Proof.
  intros d i Hd Hi. split; unfold Qle; cbn [Qnum Qden]; rewrite ?Z2Pos.id by lia; nia.
Qed.

Lemma frac_step : forall v x eps d i b, 0 <= b <= 48 -> near v x eps -> 0 <= d <= 9 -> 1 <= i -> 10 * i <= 2 ^ 53 ->
  (x + eps + 1 <= p2 b)%Q ->
  near (num_frac v d i) (x + (d # Z.to_pos (10 * i))) (eps + p2 (b - 52)).
Proof.
  intros v x eps d i b HB (a & V & A1 & A2) Hd Hi H10 HX. unfold num_frac.
  destruct (quotient_near d i Hd Hi H10) as (c & C & C1 & C2).
  pose proof (digit_le d i Hd Hi) as DL. set (q := d # Z.to_pos (10 * i)) in *. clearbody q.
  assert (P : (p2 (-53) <= 1 # 10)%Q) by (apply Qle_trans with (p2 (-4)); [apply p2_le; lia|discriminate]).
  assert (P' : (p2 (-53) <= p2 (b - 53))%Q) by (apply p2_le; lia).
  pose proof (p2_half (b - 52)) as PH. replace (b - 52 - 1) with (b - 53) in PH by lia.
  destruct (add_near v _ a c b V C) as (w & W & W1 & W2); [lra|lia|].
  exists w. split; auto. split; lra.
Qed.

Lemma len_Q : forall A (x : A) l, (inject_Z (zlen (x :: l)) == inject_Z (zlen l) + 1)%Q.
Proof. intros. unfold zlen. cbn [List.length]. rewrite Nat2Z.inj_succ. unfold Z.succ. rewrite inject_Z_plus. reflexivity. Qed.

Lemma fraction_near : forall b, 0 <= b <= 48 -> forall t ds, dec_digits t ds -> forall i v x k l, no_digit l ->
  1 <= i -> 10 * (i + zlen ds) <= 2 ^ 53 -> 0 <= k -> near v x (inject_Z k * p2 (b - 52)) ->
  (x + inject_Z k * p2 (b - 52) + inject_Z (zlen ds) <= p2 b)%Q ->
  exists w, p_num_real i v (t ++ l) = (w, l) /\ near w (x + tenths i ds) (inject_Z (k + zlen ds) * p2 (b - 52)).
Proof.
  intros b HB t ds H. induction H as [|c d t ds Hc Ht IH]; intros i v x k l Hl Hi H10 Hk HN HX.
  - exists v. split.
    + destruct l as [|c l]; [reflexivity|]. simpl in *. rewrite Hl. reflexivity.
    + destruct HN as (w & V & W1 & W2). exists w. split; auto. cbn [tenths]. change (zlen (@nil nat)) with 0. rewrite Z.add_0_r. lra.
  - assert (D9 : 0 <= Z.of_nat d <= 9).
    { pose proof (dec_digits_lt _ _ (dd_cons _ _ _ _ Hc Ht) d (or_introl eq_refl)). lia. }
    apply decdigit_spec in Hc. destruct Hc as [Q1 Q2]. cbn [app p_num_real]. rewrite Q1, Q2.
    assert (ZL : zlen (d :: ds) = zlen ds + 1) by (unfold zlen; cbn [List.length]; lia).
    assert (Z0 : 0 <= zlen ds) by (unfold zlen; lia).
    rewrite len_Q in HX. assert (LZ : (0 <= inject_Z (zlen ds))%Q) by (change 0%Q with (inject_Z 0); rewrite <- Zle_Qle; auto).
    pose proof (frac_step v x _ (Z.of_nat d) i b HB HN D9 Hi ltac:(lia) ltac:(lra)) as FS.
    assert (K1 : (inject_Z (k + 1) * p2 (b - 52) == inject_Z k * p2 (b - 52) + p2 (b - 52))%Q) by (rewrite inject_Z_plus; ring).
    assert (P4 : (p2 (b - 52) <= 1 # 16)%Q) by (apply (p2_le (b - 52) (-4)); lia).
    pose proof (digit_le (Z.of_nat d) i D9 Hi) as DL.
    destruct (IH (i + 1) (num_frac v (Z.of_nat d) i) (x + (Z.of_nat d # Z.to_pos (10 * i)))%Q (k + 1) l) as (w & E & N); auto; try lia.
    + destruct FS as (w & V & W1 & W2). exists w. split; auto. rewrite K1. auto.
    + rewrite K1. lra.
    + exists w. split; auto. cbn [tenths]. rewrite ZL. replace (k + (zlen ds + 1)) with (k + 1 + zlen ds) by lia.
      destruct N as (u & U & U1 & U2). exists u. split; auto. split; lra.
Qed.

(** from [val] to the vocabulary of the statement *)
Lemma val_float : forall v w, val v w -> exists u, float_Q v = Some u /\ (u == w)%Q.
Proof.
  intros [s|s| |[] m e] w H; cbn [val] in H; try contradiction.
  - exists 0%Q. split; auto. rewrite H. reflexivity.
  - eexists. split; [reflexivity|]. cbv iota. rewrite H. destruct (0 <=? e) eqn:L.
    + apply Z.leb_le in L. rewrite p2_Z, <- inject_Z_mult by auto. reflexivity.
    + apply Z.leb_gt in L.
      assert (I2 : (p2 e * p2 (- e) == 1)%Q) by (rewrite <- p2_add; replace (e + - e) with 0 by lia; reflexivity).
      rewrite (p2_Z (- e)) in I2 by lia. assert (0 < 2 ^ (- e)) by (apply Z.pow_pos_nonneg; lia).
      assert (NZ : ~ (inject_Z (2 ^ (- e)) == 0)%Q) by (intros C; change 0%Q with (inject_Z 0) in C; rewrite inject_Z_injective in C; lia).
      rewrite Qmake_Qdiv, Z2Pos.id by lia.
      apply (Qmult_inj_r _ _ (inject_Z (2 ^ (- e)))); auto.
      rewrite <- (Qmult_assoc _ (p2 e)), I2. field; auto.
Qed.
Lemma near_float : forall v x eps sign, near v x eps ->
  float_near (if bseq sign ["-"%byte] then num_neg v else v) (signed sign x) eps.
Proof.
  intros v x eps sign (w & V & W1 & W2). destruct (val_float _ _ V) as (u & U & E).
  unfold signed. destruct (bseq sign ["-"%byte]).
  - exists (- u)%Q. split; [|lra]. destruct v as [s|s| |[] m e]; cbn [val] in V; try contradiction.
    + simpl in *. injection U as <-. reflexivity.
    + cbn [num_neg SFopp negb float_Q] in *. injection U as <-. reflexivity.
  - exists u. split; [auto|lra].
Qed.

Lemma fraction_body : forall b a da f df l, 0 <= b <= 48 -> dec_digits a da -> dec_digits f df -> no_digit l ->
  dec_value da + zlen df <= 2 ^ b ->
  exists v, p_num_body num_zero false (a ++ "."%byte :: f ++ l) = (v, l) /\
    near v (inject_Z (dec_value da) + tenths 1 df) (inject_Z (zlen df) * p2 (b - 52)).
Proof.
  intros b a da f df l HB Ha Hf Hl HX.
  assert (Z0 : 0 <= zlen df) by (unfold zlen; lia).
  assert (N0 : 0 <= dec_value da) by (apply (dec_from_ge da 0); lia).
  assert (BB : 2 ^ b <= 2 ^ 48) by (apply Z.pow_le_mono_r; lia). 
  assert (B48 : 10 * (1 + 2 ^ 48) <= 2 ^ 53) by (vm_compute; discriminate).
  assert (B53 : 2 ^ 48 <= 2 ^ 53) by (vm_compute; discriminate).
  unfold p_num_body. rewrite (p_num_int_text _ _ Ha) by reflexivity.
  cbn [p_num_int]. change (is_digit "."%byte) with false. change (beq "."%byte "."%byte) with true. cbv iota.
  change num_zero with (num_of_Z 0). rewrite (push_exact da 0); try lia.
  2:{ eapply dec_digits_lt; eauto. } 2:{ change (dec_from 0 da) with (dec_value da). lia. }
  change (dec_from 0 da) with (dec_value da).
  destruct (fraction_near b HB f df Hf 1 (num_of_Z (dec_value da)) (inject_Z (dec_value da)) 0 l) as (w & E & N); auto; try lia.
  - exists (inject_Z (dec_value da)). split; [apply num_val; lia|]. change (inject_Z 0) with 0%Q. lra.
  - change (inject_Z 0) with 0%Q. rewrite (p2_Z b) by lia. rewrite Zle_Qle, inject_Z_plus in HX. lra.
  - exists w. split; auto.
Qed.

Lemma sign_number : forall sign a da f l v, (sign = [] \/ sign = ["+"%byte] \/ sign = ["-"%byte]) -> dec_digits a da ->
  p_num_body num_zero false (a ++ "."%byte :: f ++ l) = (v, l) ->
  p_number (sign ++ a ++ "."%byte :: f ++ l) = ((if bseq sign ["-"%byte] then num_neg v else v), l).
Proof.
  intros sign a da f l v Hs Ha Hv. destruct Hs as [-> | [-> | ->]].
  - simpl app. change (bseq [] ["-"%byte]) with false. cbv iota. rewrite <- Hv. destruct a as [|c a]; [reflexivity|].
    inversion Ha as [|? d ? ds Hb Ht]; subst. apply decdigit_spec in Hb. destruct Hb as [D _].
    apply (plain_first c (a ++ "."%byte :: f ++ l) D).
  - change (bseq ["+"%byte] ["-"%byte]) with false. cbv iota. rewrite <- Hv. reflexivity.
  - change (bseq ["-"%byte] ["-"%byte]) with true. cbv iota.
    change (p_number (["-"%byte] ++ a ++ "."%byte :: f ++ l))
      with (let '(v, r) := p_num_body num_zero false (a ++ "."%byte :: f ++ l) in (num_neg v, r)).
    rewrite Hv. reflexivity.
Qed.

Lemma no_more_digits : forall r, (forall b r', r = b :: r' -> forall d, ~ decdigit b d) -> no_digit r.
Proof.
  intros r Hr. destruct r as [|b r']; [exact I|]. simpl. destruct (is_digit b) eqn:D; auto. exfalso.
  apply (Hr b r' eq_refl (Z.to_nat (bv b - 48))). apply decdigit_spec. split; auto.
  unfold is_digit in D. apply andb_true_iff in D. destruct D as [D _]. apply Z.leb_le in D. lia.
Qed.

Lemma sign_first : forall sign a da f l, (sign = [] \/ sign = ["+"%byte] \/ sign = ["-"%byte]) -> dec_digits a da ->
  p_ws (sign ++ a ++ "."%byte :: f ++ l) = sign ++ a ++ "."%byte :: f ++ l.
Proof.
  intros sign a da f l Hs Ha. destruct Hs as [-> | [-> | ->]]; try (apply p_ws_id; reflexivity).
  simpl app. destruct a as [|c a]; [apply p_ws_id; reflexivity|].
  inversion Ha as [|? d ? ds Hb Ht]; subst. apply decdigit_spec in Hb. destruct Hb as [D _].
  destruct (digit_not_ws _ D). apply p_ws_id; auto.
Qed.

Theorem read_fraction : forall b file s g sign a da f df r, 0 <= b <= 48 -> wf file s -> gap g ->
  (sign = [] \/ sign = ["+"%byte] \/ sign = ["-"%byte]) -> dec_digits a da -> dec_digits f df ->
  dec_value da + zlen df <= 2 ^ b ->
  (forall c r', r = c :: r' -> forall d, ~ decdigit c d) ->
  rest s = g ++ sign ++ a ++ "."%byte :: f ++ r ->
  exists v s', read_number s = (v, s') /\ moved file s s' r [] /\
    float_near v (signed sign (inject_Z (dec_value da) + tenths 1 df)) (inject_Z (zlen df) * Qpower 2 (b - 52)).
Proof.
  intros b file s g sign a da f df r HB W Hg Hs Ha Hf HX Hr E. apply no_more_digits in Hr.
  destruct (fraction_body b a da f df r HB Ha Hf Hr HX) as (v & Hv & N).
  pose proof (sign_number sign a da f r v Hs Ha Hv) as P.
  destruct (read_number_sim file s (rest s) _ _ (wf_St _ _ W)) as (s' & H1 & H2).
  assert (Q : p_number (rest s) = ((if bseq sign ["-"%byte] then num_neg v else v), r)).
  { rewrite E. rewrite <- P. unfold p_number. rewrite gap_ws_app by auto. reflexivity. }
  rewrite Q in *. eexists _, s'. split; [exact H1|]. split.
  - apply St_moved; auto. rewrite app_nil_r. auto.
  - apply near_float. exact N.
Qed.

(** ** The value that the standard gives *)
Fixpoint decimals (ds : list nat) : Q :=
  match ds with [] => 0 | d :: r => (inject_Z (Z.of_nat d) + decimals r) * (1 # 10) end.

Lemma decimals_value : forall ds n, (dec_from n ds # Z.to_pos (10 ^ zlen ds) == inject_Z n + decimals ds)%Q.
Proof.
  induction ds as [|d ds IH]; intros n.
  - cbn [decimals]. change (dec_from n []) with n. change (zlen (@nil nat)) with 0. change (Z.to_pos (10 ^ 0)) with 1%positive.
    change (n # 1) with (inject_Z n). ring.
  - cbn [decimals]. change (dec_from n (d :: ds)) with (dec_from (10 * n + Z.of_nat d) ds).
    assert (P : 0 < 10 ^ zlen ds) by (apply Z.pow_pos_nonneg; unfold zlen; lia).
    assert (E : Z.to_pos (10 ^ zlen (d :: ds)) = (Z.to_pos (10 ^ zlen ds) * 10)%positive).
    { replace (zlen (d :: ds)) with (zlen ds + 1) by (unfold zlen; cbn [List.length]; lia).
      rewrite Z.pow_add_r by (unfold zlen; lia). rewrite Z2Pos.inj_mul by lia. reflexivity. }
    rewrite E. transitivity ((dec_from (10 * n + Z.of_nat d) ds # Z.to_pos (10 ^ zlen ds)) * (1 # 10))%Q.
    { unfold Qeq. simpl. lia. }
    rewrite IH. rewrite inject_Z_plus, inject_Z_mult. change (inject_Z 10) with 10%Q. ring.
Qed.

Lemma digits_no_point : forall a da, dec_digits a da -> ~ In "."%byte a.
Proof.
  induction 1 as [|c d a da Hc Ha IH]; [auto|]. intros [->|H]; auto. apply decdigit_spec in Hc. destruct Hc. discriminate.
Qed.
Lemma digits_fun : forall a da, dec_digits a da -> forall da', dec_digits a da' -> da = da'.
Proof.
  induction 1 as [|c d a da Hc Ha IH]; intros da' H; inversion H; subst; auto.
  f_equal; [|apply IH; auto]. apply decdigit_spec in Hc. destruct Hc as [_ Hc].
  match goal with h : decdigit c _ |- _ => apply decdigit_spec in h; destruct h as [_ h]; lia end.
Qed.
Lemma point_split : forall (a a' f f' : bytes), ~ In "."%byte a -> ~ In "."%byte a' ->
  a ++ "."%byte :: f = a' ++ "."%byte :: f' -> a = a' /\ f = f'.
Proof.
  induction a as [|c a IH]; intros [|c' a'] f f' H H' E; cbn [app] in E.
  - injection E as ->. auto.
  - injection E as <- _. exfalso. apply H'. left. auto.
  - injection E as -> _. exfalso. apply H. left. auto.
  - injection E as -> E. destruct (IH a' f f') as [-> ->]; auto.
    + intros I'. apply H. right. auto.
    + intros I'. apply H'. right. auto.
Qed.
Lemma first_not_sign : forall a da f x r, dec_digits a da -> a ++ "."%byte :: f = x :: r -> ~ In x (lit "+-").
Proof.
  intros a da f x r Ha E. inversion Ha; subst; cbn [app] in E; injection E as <- _.
  - intros [H|[H|[]]]; discriminate.
  - match goal with h : decdigit _ _ |- _ => apply decdigit_spec in h; destruct h as [h _] end.
    intros [<-|[<-|[]]]; discriminate.
Qed.
Lemma plain_value : forall a da f df q, dec_digits a da -> dec_digits f df -> real_text (a ++ "."%byte :: f) q ->
  (q == inject_Z (dec_value da) + decimals df)%Q.
Proof.
  intros a da f df q Ha Hf H.
  assert (NS : forall x r, a ++ "."%byte :: f = x :: r -> ~ In x (lit "+-")) by (intros x r E0; exact (first_not_sign a da f x r Ha E0)).
  remember (a ++ "."%byte :: f) as l eqn:El. destruct H as [a' da' f' df' Ha' Hf' _|t q _ _|t q _ _].
  - symmetry in El. destruct (point_split a a' f f') as [-> ->]; auto; try (eapply digits_no_point; eauto).
    rewrite (digits_fun _ _ Ha' _ Ha), (digits_fun _ _ Hf' _ Hf).
    rewrite <- decimals_value. unfold dec_value, dec_from, zlen. rewrite fold_left_app. reflexivity.
  - exfalso. apply (NS "+"%byte t); [auto|left; auto].
  - exfalso. apply (NS "-"%byte t); [auto|right; left; auto].
Qed.
Lemma signed_value : forall sign a da f df q, (sign = [] \/ sign = ["+"%byte] \/ sign = ["-"%byte]) ->
  dec_digits a da -> dec_digits f df -> real_text (sign ++ a ++ "."%byte :: f) q ->
  (q == signed sign (inject_Z (dec_value da) + decimals df))%Q.
Proof.
  intros sign a da f df q Hs Ha Hf H. destruct Hs as [-> | [-> | ->]].
  - apply (plain_value a da f df); auto.
  - change (signed ["+"%byte] (inject_Z (dec_value da) + decimals df)) with (inject_Z (dec_value da) + decimals df)%Q.
    cbn [app] in H. inversion H as [a' da' f' df' Ha' _ _ E|t q' Ht _ E|]; subst.
    + exfalso. eapply (first_not_sign a' da' f' "+"%byte); eauto. left; auto.
    + apply (plain_value a da f df); auto.
  - change (signed ["-"%byte] (inject_Z (dec_value da) + decimals df)) with (- (inject_Z (dec_value da) + decimals df))%Q.
    cbn [app] in H. inversion H as [a' da' f' df' Ha' _ _ E| |t q' Ht _ E]; subst.
    + exfalso. eapply (first_not_sign a' da' f' "-"%byte); eauto. right; left; auto.
    + rewrite (plain_value a da f df q'); auto. reflexivity.
Qed.

(** ** How far the two are apart *)
Lemma decimals_zero : forall ds, (forall d, In d ds -> d = 0%nat) -> (decimals ds == 0)%Q.
Proof.
  induction ds as [|d ds IH]; intros H; [reflexivity|]. cbn [decimals]. rewrite IH by (intros; apply H; right; auto).
  rewrite (H d) by (left; auto). reflexivity.
Qed.
Lemma tenths_zero : forall ds i, (forall d, In d ds -> d = 0%nat) -> (tenths i ds == 0)%Q.
Proof.
  induction ds as [|d ds IH]; intros i H; [reflexivity|]. cbn [tenths]. rewrite IH by (intros; apply H; right; auto).
  rewrite (H d) by (left; auto). reflexivity.
Qed.

Lemma digit_gap : forall d i w, (2 <= i) -> (w * inject_Z (5 * i) <= 1)%Q ->
  (inject_Z (Z.of_nat d) * ((2 # 25) / inject_Z i) <= (Z.of_nat d # Z.to_pos (10 * i)) - w * inject_Z (Z.of_nat d) * (1 # 10))%Q.
Proof.
  intros d i w Hi Hw. rewrite (Qmake_Qdiv (Z.of_nat d) (Z.to_pos (10 * i))), Z2Pos.id by lia.
  assert (D0 : (0 <= inject_Z (Z.of_nat d))%Q) by (change 0%Q with (inject_Z 0); rewrite <- Zle_Qle; lia).
  assert (I0 : (0 < inject_Z i)%Q) by (change 0%Q with (inject_Z 0); rewrite <- Zlt_Qlt; lia).
  rewrite inject_Z_mult in *. change (inject_Z 5) with 5%Q in Hw. change (inject_Z 10) with 10%Q.
  assert (W : (w <= (1 # 5) / inject_Z i)%Q) by (apply Qle_shift_div_l; auto; lra).
  assert (E1 : (inject_Z (Z.of_nat d) / (10 * inject_Z i) == inject_Z (Z.of_nat d) * ((1 # 10) / inject_Z i))%Q) by (field; lra).
  assert (E2 : ((1 # 5) / inject_Z i == 2 * ((1 # 10) / inject_Z i))%Q) by (field; lra).
  assert (E3 : ((2 # 25) / inject_Z i == (4 # 5) * ((1 # 10) / inject_Z i))%Q) by (field; lra).
  rewrite E1, E3. rewrite E2 in W. set (u := ((1 # 10) / inject_Z i)%Q) in *. nra.
Qed.

Lemma tenths_gap : forall ds i w K, 2 <= i -> (0 <= w)%Q -> (w * inject_Z (5 * i) <= 1)%Q -> i + zlen ds <= K + 1 ->
  (0 <= tenths i ds - w * decimals ds)%Q /\
  ((exists d, In d ds /\ d <> 0%nat) -> (2 # 25) / inject_Z K <= tenths i ds - w * decimals ds)%Q.
Proof.
  induction ds as [|d ds IH]; intros i w K Hi W0 Hw HK.
  - cbn [tenths decimals]. split; [lra|]. intros (d & [] & _).
  - cbn [tenths decimals]. assert (ZL : zlen (d :: ds) = zlen ds + 1) by (unfold zlen; cbn [List.length]; lia).
    assert (Z0 : 0 <= zlen ds) by (unfold zlen; lia).
    assert (I2 : (2 <= inject_Z i)%Q) by (change 2%Q with (inject_Z 2); rewrite <- Zle_Qle; lia).
    assert (IK : (inject_Z i <= inject_Z K)%Q) by (rewrite <- Zle_Qle; lia).
    destruct (IH (i + 1) (w * (1 # 10))%Q K) as [G1 G2]; try lia; try lra.
    { rewrite inject_Z_mult, inject_Z_plus in *. change (inject_Z 5) with 5%Q in *. change (inject_Z 1) with 1%Q. nra. }
    pose proof (digit_gap d i w Hi Hw) as DG.
    assert (D0 : (0 <= inject_Z (Z.of_nat d))%Q) by (change 0%Q with (inject_Z 0); rewrite <- Zle_Qle; lia).
    assert (U : (0 < (2 # 25) / inject_Z K)%Q) by (apply Qlt_shift_div_l; lra).
    assert (U2 : ((2 # 25) / inject_Z K <= (2 # 25) / inject_Z i)%Q).
    { apply Qle_shift_div_l; [lra|]. 
      assert (E : ((2 # 25) / inject_Z K * inject_Z i == (2 # 25) * (inject_Z i / inject_Z K))%Q) by (field; lra). rewrite E.
      assert (inject_Z i / inject_Z K <= 1)%Q by (apply Qle_shift_div_r; lra). lra. }
    set (x := tenths (i + 1) ds) in *. set (y := decimals ds) in *.
    set (c := (Z.of_nat d # Z.to_pos (10 * i))) in *. clearbody x y c.
    set (u := ((2 # 25) / inject_Z i)%Q) in *. set (uK := ((2 # 25) / inject_Z K)%Q) in *. clearbody u uK.
    set (dd := inject_Z (Z.of_nat d)) in *.
    split; [nra|]. intros (d0 & [<-|I0] & N).
    + assert (D1 : (1 <= dd)%Q) by (unfold dd; change 1%Q with (inject_Z 1); rewrite <- Zle_Qle; lia). nra.
    + specialize (G2 (ex_intro _ d0 (conj I0 N))). nra.
Qed.

Lemma one_decimal_same : forall df, one_decimal df -> (tenths 1 df == decimals df)%Q.
Proof.
  intros [|d r] H; [reflexivity|]. unfold one_decimal in H. cbn [tl] in H. cbn [tenths decimals].
  rewrite tenths_zero, decimals_zero by auto. change (Z.to_pos (10 * 1)) with 10%positive. unfold Qeq. simpl. lia.
Qed.
Lemma further_decimals : forall df K, zlen df <= K -> ~ one_decimal df -> ((2 # 25) / inject_Z K <= tenths 1 df - decimals df)%Q.
Proof.
  intros [|d r] K HK H; [exfalso; apply H; intros x []|]. cbn [tenths decimals].
  destruct (tenths_gap r (1 + 1) (1 # 10) K) as [_ G]; try lia; try (vm_compute; discriminate).
  { unfold zlen in *. cbn [List.length] in HK. lia. }
  assert (X : exists x, In x r /\ x <> 0%nat).
  { clear - H. unfold one_decimal in H. cbn [tl] in H. induction r as [|x r IH]; [exfalso; apply H; intros ? []|].
    destruct x as [|x]; [|exists (S x); split; [left; auto|auto]].
    destruct IH as (y & I1 & N); [|exists y; split; [right; auto|auto]].
    intros F. apply H. intros z [<-|I1]; auto. }
  specialize (G X). change (Z.to_pos (10 * 1)) with 10%positive.
  assert (E : (Z.of_nat d # 10 == inject_Z (Z.of_nat d) * (1 # 10))%Q) by (unfold Qeq; simpl; lia). rewrite E. lra.
Qed.

Theorem read_one_decimal : forall b file s g sign a da f df q r, 0 <= b <= 48 -> wf file s -> gap g ->
  (sign = [] \/ sign = ["+"%byte] \/ sign = ["-"%byte]) -> dec_digits a da -> dec_digits f df ->
  real_text (sign ++ a ++ "."%byte :: f) q -> one_decimal df ->
  dec_value da + zlen df <= 2 ^ b ->
  (forall c r', r = c :: r' -> forall d, ~ decdigit c d) ->
  rest s = g ++ sign ++ a ++ "."%byte :: f ++ r ->
  exists v s', read_number s = (v, s') /\ moved file s s' r [] /\
    float_near v q (inject_Z (zlen df) * Qpower 2 (b - 52)).
Proof.
  intros b file s g sign a da f df q r HB W Hg Hs Ha Hf Hq H1 HX Hr E.
  destruct (read_fraction b file s g sign a da f df r HB W Hg Hs Ha Hf HX Hr E) as (v & s' & A & B & (u & U & C1 & C2)).
  exists v, s'. split; auto. split; auto. exists u. split; auto.
  apply (signed_value _ _ _ _ _ _ Hs Ha Hf) in Hq.
  assert (S1 : (signed sign (inject_Z (dec_value da) + tenths 1 df) == q)%Q).
  { rewrite Hq. unfold signed. destruct (bseq sign ["-"%byte]); rewrite one_decimal_same by auto; reflexivity. }
  rewrite S1 in C1, C2. auto.
Qed.

Theorem read_classified : forall file s g sign a da f df q r, wf file s -> gap g ->
  (sign = [] \/ sign = ["+"%byte] \/ sign = ["-"%byte]) -> dec_digits a da -> dec_digits f df ->
  real_text (sign ++ a ++ "."%byte :: f) q -> dec_value da <= 2 ^ 20 -> zlen df <= 1000 ->
  (forall c r', r = c :: r' -> forall d, ~ decdigit c d) ->
  rest s = g ++ sign ++ a ++ "."%byte :: f ++ r ->
  exists v s', read_number s = (v, s') /\ (float_near v q (1 # 100000) <-> one_decimal df).
Proof.
  intros file s g sign a da f df q r W Hg Hs Ha Hf Hq HV HL Hr E.
  assert (HX : dec_value da + zlen df <= 2 ^ 21) by (change (2 ^ 21) with (2 ^ 20 + 1048576); lia).
  destruct (read_fraction 21 file s g sign a da f df r ltac:(lia) W Hg Hs Ha Hf HX Hr E) as (v & s' & A & B & (u & U & C1 & C2)).
  exists v, s'. split; auto.
  apply (signed_value _ _ _ _ _ _ Hs Ha Hf) in Hq.
  assert (ER : (inject_Z (zlen df) * Qpower 2 (21 - 52) <= 1 # 1000000)%Q).
  { apply Qle_trans with (inject_Z 1000 * Qpower 2 (21 - 52))%Q; [|vm_compute; discriminate].
    apply Qmult_le_compat_r; [rewrite <- Zle_Qle; auto|vm_compute; discriminate]. }
  set (eps := (inject_Z (zlen df) * Qpower 2 (21 - 52))%Q) in *. clearbody eps.
  split.
  - intros (u' & U' & D1 & D2). rewrite U in U'. injection U' as <-.
    assert (DEC : one_decimal df \/ ~ one_decimal df).
    { unfold one_decimal. induction (tl df) as [|x l IH]; [left; intros ? []|].
      destruct x as [|x]; [|right; intros F; specialize (F (S x) (or_introl eq_refl)); discriminate].
      destruct IH as [IH|IH]; [left; intros z [<-|I1]; auto|right; intros F; apply IH; intros z I1; apply F; right; auto]. }
    destruct DEC as [DEC|DEC]; auto. exfalso.
    pose proof (further_decimals df 1000 HL DEC) as G.
    assert (G0 : (1 # 12500 <= (2 # 25) / inject_Z 1000)%Q) by (vm_compute; discriminate).
    set (k := ((2 # 25) / inject_Z 1000)%Q) in *. clearbody k.
    unfold signed in *. destruct (bseq sign ["-"%byte]); lra.
  - intros O1. exists u. split; auto. apply one_decimal_same in O1.
    unfold signed in *. destruct (bseq sign ["-"%byte]); split; lra.
Qed.
