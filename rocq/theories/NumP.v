(** NumP.v -- float64 arithmetic on integers up to 2^53 is exact. *)
From Verif Require Import Base BaseP Num.
From Coq Require Import Floats.SpecFloat.

Lemma nat_iter_add : forall A (f : A -> A) a b y, Nat.iter a f (Nat.iter b f y) = Nat.iter (a + b) f y.
Proof. induction a; intros; simpl; congruence. Qed.

Lemma iter_pos_nat : forall A (f : A -> A) p x, iter_pos f p x = Nat.iter (Pos.to_nat p) f x.
Proof.
  intros A f. induction p as [p IH|p IH|]; intros x; simpl iter_pos.
  - rewrite !IH. rewrite Pos2Nat.inj_xI. rewrite nat_iter_add.
    change (f x) with (Nat.iter 1 f x). rewrite nat_iter_add. f_equal. lia.
  - rewrite !IH. rewrite Pos2Nat.inj_xO. rewrite nat_iter_add. f_equal. lia.
  - reflexivity.
Qed.

(** shifting out zero bits is exact *)
Lemma shr_exact : forall n M, 0 < M ->
  Nat.iter n shr_1 {| shr_m := M * 2 ^ Z.of_nat n; shr_r := false; shr_s := false |}
  = {| shr_m := M; shr_r := false; shr_s := false |}.
Proof.
  induction n as [|n IH]; intros M HM.
  - simpl. rewrite Z.mul_1_r. reflexivity.
  - replace (S n) with (n + 1)%nat by lia. rewrite <- nat_iter_add. simpl (Nat.iter 1 _ _).
    assert (E : exists q, M * 2 ^ Z.of_nat n = Zpos q /\ M * 2 ^ Z.of_nat (n + 1) = Zpos (xO q)).
    { assert (0 < M * 2 ^ Z.of_nat n) by (apply Z.mul_pos_pos; [lia|apply Z.pow_pos_nonneg; lia]).
      destruct (M * 2 ^ Z.of_nat n) as [|q|q] eqn:EQ; try lia. exists q. split; auto.
      replace (Z.of_nat (n + 1)) with (Z.of_nat n + 1) by lia. rewrite Z.pow_add_r by lia.
      rewrite Z.mul_assoc, EQ. simpl (2 ^ 1). lia. }
    destruct E as (q & E1 & E2). rewrite E2. unfold shr_1. cbn [shr_m shr_r shr_s orb].
    rewrite <- E1. apply IH; auto.
Qed.

(** number of binary digits *)
Lemma digits2_pos_bounds : forall p, 2 ^ (Zpos (digits2_pos p) - 1) <= Zpos p < 2 ^ Zpos (digits2_pos p).
Proof.
  induction p as [p IH|p IH|]; simpl digits2_pos.
  - rewrite Pos2Z.inj_succ. rewrite Z.pow_succ_r by lia.
    replace (Z.succ (Zpos (digits2_pos p)) - 1) with (Z.succ (Zpos (digits2_pos p) - 1)) by lia.
    rewrite Z.pow_succ_r by lia. lia.
  - rewrite Pos2Z.inj_succ. rewrite Z.pow_succ_r by lia.
    replace (Z.succ (Zpos (digits2_pos p)) - 1) with (Z.succ (Zpos (digits2_pos p) - 1)) by lia.
    rewrite Z.pow_succ_r by lia. lia.
  - simpl. lia.
Qed.

Lemma digits2_unique : forall p d, 0 < d -> 2 ^ (d - 1) <= Zpos p < 2 ^ d -> Zpos (digits2_pos p) = d.
Proof.
  intros p d Hd [H1 H2]. pose proof (digits2_pos_bounds p) as [B1 B2].
  assert (d - 1 < Zpos (digits2_pos p)).
  { apply (Z.pow_lt_mono_r_iff 2); try lia. }
  assert (Zpos (digits2_pos p) - 1 < d).
  { apply (Z.pow_lt_mono_r_iff 2); try lia. }
  lia.
Qed.

Definition normal (M E : Z) : Prop := 2 ^ 52 <= M < 2 ^ 53 /\ -1074 <= E <= 971.

(** a normal mantissa times a power of two *)
Lemma digits_shift : forall M k p, 2 ^ 52 <= M < 2 ^ 53 -> 0 <= k -> Zpos p = M * 2 ^ k ->
  Zpos (digits2_pos p) = 53 + k.
Proof.
  intros M k p HM Hk E. apply digits2_unique; [lia|]. rewrite E.
  replace (53 + k - 1) with (52 + k) by lia. rewrite !Z.pow_add_r by lia.
  assert (0 < 2 ^ k) by (apply Z.pow_pos_nonneg; lia). nia.
Qed.

Lemma round_aux_exact : forall s M E k p, normal M E -> 0 <= k -> Zpos p = M * 2 ^ k ->
  binary_round_aux prec64 emax64 s (Zpos p) (E - k) loc_Exact = S754_finite s (Z.to_pos M) E.
Proof.
  intros s M E k p [HM HE] Hk Hp. unfold binary_round_aux, shr_fexp.
  cbn [Zdigits2]. rewrite (digits_shift _ _ _ HM Hk Hp).
  unfold fexp, emin, prec64, emax64.
  replace (Z.max (53 + k + (E - k) - 53) (3 - 1024 - 53) - (E - k)) with k by lia.
  assert (S1 : shr (shr_record_of_loc (Zpos p) loc_Exact) (E - k) k =
               ({| shr_m := M; shr_r := false; shr_s := false |}, E)).
  { unfold shr. simpl shr_record_of_loc. destruct k as [|q|q]; try lia.
    - rewrite Z.mul_1_r in Hp. rewrite Hp. f_equal. lia.
    - f_equal; [|lia]. rewrite iter_pos_nat. rewrite Hp.
      pose proof (shr_exact (Pos.to_nat q) M) as X. rewrite positive_nat_Z in X. apply X. lia. }
  rewrite S1. cbn [shr_m].
  assert (L : loc_of_shr_record {| shr_m := M; shr_r := false; shr_s := false |} = loc_Exact).
  { unfold loc_of_shr_record. destruct M; reflexivity. }
  rewrite L. unfold round_nearest_even.
  assert (HP : Zpos (Z.to_pos M) = M * 2 ^ 0) by (rewrite Z2Pos.id; lia).
  replace (Zdigits2 M) with 53.
  2:{ destruct M as [|q|q]; try lia. cbn [Zdigits2]. pose proof (digits_shift (Zpos q) 0 q HM) as X. lia. }
  replace (Z.max (53 + E - 53) (3 - 1024 - 53) - E) with 0 by lia.
  unfold shr. simpl shr_record_of_loc. cbn [shr_m].
  destruct M as [|q|q]; try lia. simpl Z.to_pos.
  destruct (Zle_bool E (1024 - 53)) eqn:EE; [reflexivity|].
  unfold Zle_bool in EE. apply Z.leb_gt in EE. lia.
Qed.

(** Two scaled integers are equal: m * 2^e = M * 2^E. *)
Definition same_value (m e M E : Z) : Prop := exists B, 0 <= e + B /\ 0 <= E + B /\ m * 2 ^ (e + B) = M * 2 ^ (E + B).

Lemma same_value_ge : forall m e M E, same_value m e M E -> e <= E -> m = M * 2 ^ (E - e).
Proof.
  intros m e M E (B & H1 & H2 & H3) H.
  replace (E + B) with ((E - e) + (e + B)) in H3 by lia. rewrite (Z.pow_add_r 2 (E - e)) in H3 by lia.
  rewrite Z.mul_assoc in H3. apply Z.mul_reg_r in H3; auto.
  assert (0 < 2 ^ (e + B)) by (apply Z.pow_pos_nonneg; lia). lia.
Qed.
Lemma same_value_sym : forall m e M E, same_value m e M E -> same_value M E m e.
Proof. intros m e M E (B & H1 & H2 & H3). exists B. auto. Qed.
Lemma same_value_trans : forall a b c d e f, same_value a b c d -> same_value c d e f -> same_value a b e f.
Proof.
  intros a b c d e f (B & H1 & H2 & H3) (C & K1 & K2 & K3).
  exists (Z.max B C).
  assert (S : forall m x D G, 0 <= x + D -> D <= G -> m * 2 ^ (x + G) = m * 2 ^ (x + D) * 2 ^ (G - D)).
  { intros. rewrite <- Z.mul_assoc, <- Z.pow_add_r by lia. f_equal. f_equal. lia. }
  split; [lia|]. split; [lia|].
  rewrite (S a b B) by lia. rewrite H3, <- S by lia.
  rewrite (S c d C) by lia. rewrite K3, <- S by lia. reflexivity.
Qed.

Lemma round_exact : forall s p e M E, normal M E -> same_value (Zpos p) e M E ->
  binary_round prec64 emax64 s p e = S754_finite s (Z.to_pos M) E.
Proof.
  intros s p e M E HN HV. unfold binary_round, shl_align.
  pose proof (digits2_pos_bounds p) as [B1 B2]. set (D := Zpos (digits2_pos p)) in *.
  destruct HN as [HM HE].
  assert (ED : E = D + e - 53).
  { destruct (Z_le_gt_dec e E) as [L|L].
    - apply same_value_ge in HV; auto.
      assert (D = 53 + (E - e)) by (apply (digits_shift M); auto; lia). lia.
    - apply same_value_sym in HV. apply same_value_ge in HV; [|lia].
      assert (P0 : 0 < 2 ^ (e - E)) by (apply Z.pow_pos_nonneg; lia).
      assert (D = 53 - (e - E)); [|lia]. apply digits2_unique.
      + destruct (Z_le_gt_dec (53 - (e - E)) 0); [|lia].
        assert (2 ^ 53 <= 2 ^ (e - E)) by (apply Z.pow_le_mono_r; lia). nia.
      + assert (e - E <= 52).
        { destruct (Z_le_gt_dec (e - E) 52); auto.
          assert (2 ^ 53 <= 2 ^ (e - E)) by (apply Z.pow_le_mono_r; lia). nia. }
        assert (X1 : 2 ^ 52 = 2 ^ (53 - (e - E) - 1) * 2 ^ (e - E)) by (rewrite <- Z.pow_add_r by lia; f_equal; lia).
        assert (X2 : 2 ^ 53 = 2 ^ (53 - (e - E)) * 2 ^ (e - E)) by (rewrite <- Z.pow_add_r by lia; f_equal; lia).
        nia. }
  fold D. unfold fexp, emin, prec64, emax64.
  replace (Z.max (D + e - 53) (3 - 1024 - 53)) with E by lia.
  destruct (E - e) as [|d|d] eqn:EK.
  - assert (e = E) by lia. subst e.
    replace E with (E - 0) at 1 by lia. apply (round_aux_exact s M E 0); [split; auto|lia|].
    apply same_value_ge in HV; [|lia]. rewrite HV. f_equal. f_equal. lia.
  - apply same_value_ge in HV; [|lia].
    replace e with (E - (E - e)) at 1 by lia. apply round_aux_exact; [split; auto|lia|]. auto.
  - apply same_value_sym in HV. apply same_value_ge in HV; [|lia].
    replace E with (E - 0) at 1 by lia. apply (round_aux_exact s M E 0); [split; auto|lia|].
    rewrite Z.mul_1_r. rewrite HV. rewrite Zpower.shift_pos_correct.
    replace (e - E) with (Zpos d) by lia. rewrite Z.pow_pos_fold. apply Z.mul_comm.
Qed.

(** ** Representation of positive integers *)
Definition rep (v : num) (z : Z) : Prop :=
  exists M E, normal M E /\ same_value z 0 M E /\ v = S754_finite false (Z.to_pos M) E.

Lemma normal_unique : forall M1 E1 M2 E2, normal M1 E1 -> normal M2 E2 -> same_value M1 E1 M2 E2 ->
  M1 = M2 /\ E1 = E2.
Proof.
  assert (K : forall M1 E1 M2 E2, normal M1 E1 -> normal M2 E2 -> same_value M1 E1 M2 E2 -> E1 <= E2 -> E1 = E2).
  { intros M1 E1 M2 E2 [H1 _] [H2 _] V L. pose proof (same_value_ge _ _ _ _ V L) as X.
    destruct (Z.eq_dec E1 E2); auto.
    assert (2 ^ 1 <= 2 ^ (E2 - E1)) by (apply Z.pow_le_mono_r; lia).
    change (2 ^ 53) with (2 * 2 ^ 52) in *. change (2 ^ 1) with 2 in *. nia. }
  intros M1 E1 M2 E2 H1 H2 V.
  assert (E1 = E2).
  { destruct (Z_le_gt_dec E1 E2); [eapply K; eauto|]. symmetry.
    apply (K M2 E2 M1 E1); auto; [|lia]. apply same_value_sym; auto. }
  subst E2. split; auto. pose proof (same_value_ge _ _ _ _ V (Z.le_refl _)) as X.
  rewrite Z.sub_diag in X. lia.
Qed.

Lemma rep_unique : forall v w z, rep v z -> rep w z -> v = w.
Proof.
  intros v w z (M & E & N & V & ->) (M' & E' & N' & V' & ->).
  destruct (normal_unique M E M' E') as [-> ->]; auto.
  eapply same_value_trans; [apply same_value_sym; eauto|eauto].
Qed.

(** every integer in range has a normal form *)
Lemma normal_exists : forall z, 1 <= z <= 2 ^ 53 -> exists M E, normal M E /\ same_value z 0 M E /\ -52 <= E <= 1.
Proof.
  intros z H. destruct (Z.eq_dec z (2 ^ 53)) as [->|N].
  - exists (2 ^ 52), 1. split; [split; lia|]. split; [|lia]. exists 0. split; [lia|]. split; [lia|]. reflexivity.
  - set (D := Z.log2 z). assert (HD : 2 ^ D <= z < 2 ^ Z.succ D) by (apply Z.log2_spec; lia).
    assert (0 <= D) by apply Z.log2_nonneg.
    assert (D < 53) by (apply Z.log2_lt_pow2; lia).
    exists (z * 2 ^ (52 - D)), (D - 52).
    assert (P : 0 < 2 ^ (52 - D)) by (apply Z.pow_pos_nonneg; lia).
    assert (X1 : 2 ^ 52 = 2 ^ D * 2 ^ (52 - D)) by (rewrite <- Z.pow_add_r by lia; f_equal; lia).
    assert (X2 : 2 ^ 53 = 2 ^ Z.succ D * 2 ^ (52 - D)) by (rewrite <- Z.pow_add_r by lia; f_equal; lia).
    split; [split; [nia|lia]|]. split; [|lia].
    exists (52 - D). split; [lia|]. split; [lia|].
    replace (D - 52 + (52 - D)) with 0 by lia. rewrite Z.mul_1_r. f_equal.
Qed.

Lemma round_rep : forall z e p, 1 <= z <= 2 ^ 53 -> same_value (Zpos p) e z 0 ->
  forall s, exists M E, normal M E /\ same_value z 0 M E /\ binary_round prec64 emax64 s p e = S754_finite s (Z.to_pos M) E.
Proof.
  intros z e p H V s. destruct (normal_exists z H) as (M & E & N & V' & _).
  exists M, E. split; auto. split; auto. apply round_exact; auto. eapply same_value_trans; eauto.
Qed.

Lemma same_value_refl : forall z e, same_value z e z e.
Proof. intros. exists (Z.abs e). lia. Qed.

Lemma num_of_Z_rep : forall z, 1 <= z <= 2 ^ 53 -> rep (num_of_Z z) z.
Proof.
  intros z H. unfold num_of_Z, binary_normalize. destruct z as [|p|p]; try lia.
  destruct (round_rep _ 0 p H (same_value_refl _ _) false) as (M & E & N & V & ->). exists M, E. auto.
Qed.

Lemma rep_mul : forall v w y z, rep v y -> rep w z -> 1 <= y * z <= 2 ^ 53 -> rep (nmul v w) (y * z).
Proof.
  intros v w y z (M1 & E1 & N1 & V1 & ->) (M2 & E2 & N2 & V2 & ->) H.
  destruct (normal_exists _ H) as (M & E & N & V & B).
  exists M, E. split; auto. split; auto. unfold nmul, SFmul. simpl xorb.
  destruct N1 as [A1 B1], N2 as [A2 B2].
  assert (P : same_value (M1 * M2) (E1 + E2) M E).
  { eapply same_value_trans; [|exact V]. apply same_value_sym.
    destruct V1 as (C1 & P1 & Q1 & R1), V2 as (C2 & P2 & Q2 & R2).
    exists (C1 + C2). split; [lia|]. split; [lia|].
    replace (0 + (C1 + C2)) with ((0 + C1) + (0 + C2)) by lia.
    replace (E1 + E2 + (C1 + C2)) with ((E1 + C1) + (E2 + C2)) by lia.
    rewrite (Z.pow_add_r 2 (0 + C1)), (Z.pow_add_r 2 (E1 + C1)) by lia.
    replace (y * z * (2 ^ (0 + C1) * 2 ^ (0 + C2))) with (y * 2 ^ (0 + C1) * (z * 2 ^ (0 + C2))) by ring.
    rewrite R1, R2. ring. }
  assert (G : 2 ^ 104 <= M1 * M2) by (change (2 ^ 104) with (2 ^ 52 * 2 ^ 52); apply Z.mul_le_mono_nonneg; lia).
  assert (L : E1 + E2 <= E).
  { destruct (Z_le_gt_dec (E1 + E2) E); auto. apply same_value_sym in P. apply same_value_ge in P; [|lia].
    assert (1 <= 2 ^ (E1 + E2 - E)) by (apply (Z.pow_le_mono_r 2 0); lia).
    destruct N as [[_ NM] _]. assert (2 ^ 53 <= 2 ^ 104) by (apply Z.pow_le_mono_r; lia). nia. }
  replace (E1 + E2) with (E - (E - (E1 + E2))) by lia. apply round_aux_exact; auto; [lia|].
  rewrite Pos2Z.inj_mul. rewrite !Z2Pos.id by lia. apply same_value_ge; auto.
Qed.

Lemma shl_align_value : forall p e e', e' <= e ->
  Zpos (fst (shl_align p e e')) = Zpos p * 2 ^ (e - e').
Proof.
  intros p e e' H. unfold shl_align. destruct (e' - e) as [|d|d] eqn:E; try lia.
  - simpl fst. replace (e - e') with 0 by lia. lia.
  - simpl fst. rewrite Zpower.shift_pos_correct. replace (e - e') with (Zpos d) by lia.
    rewrite Z.pow_pos_fold. apply Z.mul_comm.
Qed.

Lemma same_value_shift : forall M E e, e <= E -> same_value (M * 2 ^ (E - e)) e M E.
Proof.
  intros M E e H. exists (Z.abs e + Z.abs E). split; [lia|]. split; [lia|].
  rewrite <- Z.mul_assoc, <- Z.pow_add_r by lia. f_equal. f_equal. lia.
Qed.

Lemma rep_add : forall v w y z, rep v y -> rep w z -> 1 <= y + z <= 2 ^ 53 -> rep (nadd v w) (y + z).
Proof.
  intros v w y z (M1 & E1 & N1 & V1 & ->) (M2 & E2 & N2 & V2 & ->) H.
  unfold nadd, SFadd. simpl cond_Zopp. set (ez := Z.min E1 E2).
  destruct N1 as [A1 B1], N2 as [A2 B2].
  assert (S1 : Zpos (fst (shl_align (Z.to_pos M1) E1 ez)) = M1 * 2 ^ (E1 - ez)).
  { rewrite shl_align_value by lia. rewrite Z2Pos.id by lia. reflexivity. }
  assert (S2 : Zpos (fst (shl_align (Z.to_pos M2) E2 ez)) = M2 * 2 ^ (E2 - ez)).
  { rewrite shl_align_value by lia. rewrite Z2Pos.id by lia. reflexivity. }
  set (p1 := fst (shl_align (Z.to_pos M1) E1 ez)) in *.
  set (p2 := fst (shl_align (Z.to_pos M2) E2 ez)) in *.
  simpl. destruct (round_rep (y + z) ez (p1 + p2) H) with (s := false) as (M & E & N & V & ->).
  2:{ exists M, E. auto. }
  assert (T1 : same_value (Zpos p1) ez y 0).
  { rewrite S1. eapply same_value_trans; [apply same_value_shift; lia|]. apply same_value_sym; auto. }
  assert (T2 : same_value (Zpos p2) ez z 0).
  { rewrite S2. eapply same_value_trans; [apply same_value_shift; lia|]. apply same_value_sym; auto. }
  clearbody p1 p2 ez. clear S1 S2.
  rewrite Pos2Z.inj_add.
  destruct T1 as (C1 & P1 & Q1 & R1), T2 as (C2 & P2 & Q2 & R2).
  assert (S : forall m x D G, 0 <= x + D -> D <= G -> m * 2 ^ (x + G) = m * 2 ^ (x + D) * 2 ^ (G - D)).
  { intros. rewrite <- Z.mul_assoc, <- Z.pow_add_r by lia. f_equal. f_equal. lia. }
  exists (Z.max C1 C2). split; [lia|]. split; [lia|].
  rewrite !Z.mul_add_distr_r.
  rewrite (S (Zpos p1) ez C1), (S (Zpos p2) ez C2), (S y 0 C1), (S z 0 C2) by lia.
  rewrite R1, R2. reflexivity.
Qed.

(** value of a represented integer *)
Lemma rep_trunc : forall v z, rep v z -> 1 <= z -> num_trunc v = Some z.
Proof.
  intros v z (M & E & [A B] & V & ->) Hz. unfold num_trunc. rewrite Z2Pos.id by lia.
  destruct (0 <=? E) eqn:L.
  - apply Z.leb_le in L. pose proof (same_value_ge _ _ _ _ V L) as X. rewrite Z.sub_0_r in X. congruence.
  - apply Z.leb_gt in L. apply same_value_sym in V. pose proof (same_value_ge _ _ _ _ V) as X.
    rewrite X by lia. replace (0 - E) with (- E) by lia.
    rewrite Z.div_mul; [reflexivity|]. apply Z.pow_nonzero; lia.
Qed.

Lemma num_of_Z_0 : num_of_Z 0 = num_zero.
Proof. reflexivity. Qed.

Lemma num_of_Z_opp : forall z, 1 <= z <= 2 ^ 53 -> num_of_Z (- z) = num_neg (num_of_Z z).
Proof.
  intros z H. unfold num_of_Z, binary_normalize, num_neg. destruct z as [|p|p]; try lia. simpl Z.opp.
  destruct (round_rep _ 0 p H (same_value_refl _ _) false) as (M & E & N & V & ->).
  destruct (round_rep _ 0 p H (same_value_refl _ _) true) as (M' & E' & N' & V' & ->).
  destruct (normal_unique M E M' E') as [-> ->]; auto.
  eapply same_value_trans; [apply same_value_sym; eauto|eauto].
Qed.

Lemma num_trunc_neg : forall v, num_trunc (num_neg v) = option_map Z.opp (num_trunc v).
Proof.
  intros [s|s| |s m e]; simpl; auto.
  destruct s; simpl; f_equal; lia.
Qed.

Lemma num_int_of_Z : forall z, - 2 ^ 53 <= z <= 2 ^ 53 -> num_int (num_of_Z z) = z.
Proof.
  intros z H. unfold num_int.
  assert (T : num_trunc (num_of_Z z) = Some z).
  { destruct (Z_lt_le_dec z 0).
    - replace z with (- (- z)) at 1 by lia. rewrite num_of_Z_opp by lia. rewrite num_trunc_neg.
      rewrite (rep_trunc _ (- z)); [|apply num_of_Z_rep; lia|lia]. simpl. f_equal. lia.
    - destruct (Z.eq_dec z 0) as [->|]; [reflexivity|].
      apply rep_trunc; [apply num_of_Z_rep; lia|lia]. }
  rewrite T.
  destruct ((- two63 <=? z) && (z <? two63)) eqn:E; auto.
  apply andb_false_iff in E. rewrite Z.leb_gt, Z.ltb_ge in E. unfold two63 in E. lia.
Qed.

Lemma num_push_exact : forall n d, 0 <= n -> 0 <= d <= 9 -> 10 * n + d <= 2 ^ 53 ->
  num_push (num_of_Z n) d = num_of_Z (10 * n + d).
Proof.
  intros n d Hn Hd H. unfold num_push.
  assert (A0 : forall v, nadd num_zero v = v \/ v = S754_zero true).
  { intros [[|]|[|]| |s m e]; auto. }
  destruct (Z.eq_dec n 0) as [->|N].
  - simpl (10 * 0 + d). rewrite num_of_Z_0. change (nmul num_zero (num_of_Z 10)) with num_zero.
    destruct (A0 (num_of_Z d)) as [->|E]; auto.
    exfalso. destruct (Z.eq_dec d 0) as [->|ND]; [discriminate|].
    destruct (num_of_Z_rep d) as (M & X & _ & _ & Y); [lia|]. congruence.
  - assert (R : rep (nmul (num_of_Z n) (num_of_Z 10)) (n * 10)).
    { apply rep_mul; try apply num_of_Z_rep; lia. }
    destruct (Z.eq_dec d 0) as [->|ND].
    + rewrite num_of_Z_0. rewrite Z.add_0_r.
      assert (E : nadd (nmul (num_of_Z n) (num_of_Z 10)) num_zero = nmul (num_of_Z n) (num_of_Z 10)).
      { destruct R as (M & X & _ & _ & ->). reflexivity. }
      rewrite E. rewrite Z.mul_comm. apply (rep_unique _ _ (n * 10)); auto. apply num_of_Z_rep. lia.
    + rewrite (Z.mul_comm 10 n). apply (rep_unique _ _ (n * 10 + d)).
      * apply rep_add; auto; [apply num_of_Z_rep; lia|lia].
      * apply num_of_Z_rep. lia.
Qed.
