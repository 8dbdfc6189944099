(** RealP.v -- how far float64 sums and quotients are from the exact ones,
    and the value that a literal with a fraction is read with. *)
From Verif Require Import Base Num NumP.
From Coq Require Import Floats.SpecFloat QArith QArith.Qpower Lqa Lia.
Local Open Scope Z_scope.

(** ** Powers of two *)
Definition p2 (e : Z) : Q := Qpower 2 e.

Lemma p2_add : forall a b, (p2 (a + b) == p2 a * p2 b)%Q.
Proof. intros. unfold p2. apply Qpower_plus. discriminate. Qed.
Lemma p2_Z : forall e, 0 <= e -> (p2 e == inject_Z (2 ^ e))%Q.
Proof. intros e H. unfold p2. rewrite Zpower_Qpower by auto. reflexivity. Qed.
Lemma p2_pos : forall e, (0 < p2 e)%Q.
Proof.
  intros e. assert (0 <= p2 e)%Q by (unfold p2; apply Qpower_pos; discriminate).
  pose proof (p2_add e (- e)) as A. rewrite Z.add_opp_diag_r in A.
  change (p2 0) with 1%Q in A.
  destruct (Qle_lt_or_eq _ _ H) as [|E]; auto. rewrite <- E in A. lra.
Qed.
Lemma p2_le : forall a b, a <= b -> (p2 a <= p2 b)%Q.
Proof.
  intros a b H. replace b with (a + (b - a)) by lia. rewrite p2_add, (p2_Z (b - a)) by lia.
  assert (X : 1 <= 2 ^ (b - a)) by (apply (Z.pow_le_mono_r 2 0); lia).
  rewrite Zle_Qle in X. change (inject_Z 1) with 1%Q in X. pose proof (p2_pos a). nra.
Qed.
Lemma p2_lt_inv : forall a b, (p2 a < p2 b)%Q -> a < b.
Proof.
  intros a b H. destruct (Z_lt_le_dec a b); auto. pose proof (p2_le b a l). lra.
Qed.
Lemma p2_1 : forall e, (p2 (e + 1) == 2 * p2 e)%Q.
Proof. intros. rewrite p2_add. change (p2 1) with 2%Q. ring. Qed.
Lemma p2_half : forall e, (p2 (e - 1) * 2 == p2 e)%Q.
Proof. intros. pose proof (p2_1 (e - 1)). replace (e - 1 + 1) with e in H by lia. lra. Qed.

(** ** Where a number lies between two integers *)
Definition lies (m : Z) (r s : bool) (y : Q) : Prop :=
  match r, s with
  | false, false => (y == inject_Z m)%Q
  | false, true => (inject_Z m < y < inject_Z m + (1 # 2))%Q
  | true, false => (y == inject_Z m + (1 # 2))%Q
  | true, true => (inject_Z m + (1 # 2) < y < inject_Z m + 1)%Q
  end.
Definition lies_rec (x : shr_record) (y : Q) : Prop := 0 <= shr_m x /\ lies (shr_m x) (shr_r x) (shr_s x) y.

Lemma inj_double : forall p, (inject_Z (Zpos p~0) == 2 * inject_Z (Zpos p))%Q.
Proof. intros. unfold Qeq. simpl. lia. Qed.
Lemma inj_double1 : forall p, (inject_Z (Zpos p~1) == 2 * inject_Z (Zpos p) + 1)%Q.
Proof. intros. unfold Qeq. simpl. lia. Qed.

Lemma shr_1_lies : forall x y, lies_rec x y -> lies_rec (shr_1 x) (y * (1 # 2)).
Proof.
  intros [m r s] y [M L]. cbn [shr_m shr_r shr_s] in *. unfold lies_rec.
  destruct m as [|[p|p|]|p]; try lia; cbn [shr_1 shr_m shr_r shr_s]; (split; [lia|]).
  - change (inject_Z 0) with 0%Q in *. destruct r, s; cbn [orb lies] in *; change (inject_Z 0) with 0%Q in *; lra.
  - pose proof (inj_double1 p). destruct r, s; cbn [orb lies] in *; lra.
  - pose proof (inj_double p). destruct r, s; cbn [orb lies] in *; lra.
  - destruct r, s; cbn [orb lies] in *; change (inject_Z 0) with 0%Q in *; change (inject_Z 1) with 1%Q in *; lra.
Qed.
Lemma shr_iter_lies : forall n x y, lies_rec x y -> lies_rec (Nat.iter n shr_1 x) (y * p2 (- Z.of_nat n)).
Proof.
  induction n as [|n IH]; intros x y H.
  - assert (E2 : (y * p2 (- Z.of_nat 0) == y)%Q) by (change (p2 (- Z.of_nat 0)) with 1%Q; ring).
    revert E2. generalize (y * p2 (- Z.of_nat 0))%Q. intros y' E2. change (Nat.iter 0 shr_1 x) with x.
    destruct x as [m r s], H as [A B]. split; auto. cbn [shr_m shr_r shr_s] in *.
    destruct r, s; cbn [lies] in *; lra.
  - apply IH, shr_1_lies in H. change (Nat.iter (S n) shr_1 x) with (shr_1 (Nat.iter n shr_1 x)). destruct (shr_1 (Nat.iter n shr_1 x)) as [m r s], H as [A B]. split; auto.
    cbn [shr_m shr_r shr_s] in *.
    assert (E : (p2 (- Z.of_nat n) == 2 * p2 (- Z.of_nat (S n)))%Q).
    { rewrite <- p2_1. replace (- Z.of_nat (S n) + 1) with (- Z.of_nat n) by lia. reflexivity. }
    set (u := p2 (- Z.of_nat n)) in *. set (w := p2 (- Z.of_nat (S n))) in *.
    assert (E2 : (y * u * (1 # 2) == y * w)%Q) by (rewrite E; ring).
    destruct r, s; cbn [lies] in *; lra.
Qed.
Lemma lies_floor : forall x y, lies_rec x y -> (inject_Z (shr_m x) <= y < inject_Z (shr_m x) + 1)%Q.
Proof. intros [m r s] y [A B]. cbn [shr_m shr_r shr_s] in *. destruct r, s; cbn [lies] in *; lra. Qed.

Lemma lies_round : forall x y, lies_rec x y ->
  let z := round_nearest_even (shr_m x) (loc_of_shr_record x) in
  shr_m x <= z <= shr_m x + 1 /\ (inject_Z z - y <= 1 # 2)%Q /\ (y - inject_Z z <= 1 # 2)%Q.
Proof.
  intros [m r s] y [A B]. cbn [shr_m shr_r shr_s] in *.
  assert (P : (inject_Z (m + 1) == inject_Z m + 1)%Q) by (rewrite inject_Z_plus; reflexivity).
  destruct r, s; cbn [loc_of_shr_record round_nearest_even lies] in *.
  - split; [lia|]. lra.
  - destruct (Z.even m); (split; [lia|]); lra.
  - split; [lia|]. lra.
  - split; [lia|]. lra.
Qed.

(** ** Rounding *)
Definition val (v : spec_float) (w : Q) : Prop :=
  match v with
  | S754_zero _ => (w == 0)%Q
  | S754_finite false m e => (w == inject_Z (Zpos m) * p2 e)%Q
  | _ => False
  end.
Definition near (v : spec_float) (x eps : Q) : Prop := exists w, val v w /\ (w - x <= eps)%Q /\ (x - w <= eps)%Q.

Lemma p2_le_inv : forall a b, (p2 a <= p2 b)%Q -> a <= b.
Proof.
  intros a b H. destruct (Z_le_gt_dec a b); auto.
  pose proof (p2_le (b + 1) a ltac:(lia)). rewrite p2_1 in H0. pose proof (p2_pos b). lra.
Qed.

Lemma shr_steps : forall r e k, exists n E, shr r e k = (Nat.iter n shr_1 r, E) /\ E = e + Z.of_nat n /\ E = Z.max e (e + k).
Proof.
  intros r e [|p|p]; cbn [shr].
  - exists 0%nat, e. split; [reflexivity|lia].
  - exists (Pos.to_nat p), (e + Zpos p). rewrite iter_pos_nat. split; [reflexivity|lia].
  - exists 0%nat, e. split; [reflexivity|lia].
Qed.

Lemma last_step : forall z E, 0 <= z <= 2 ^ 53 -> -1074 <= E <= 900 ->
  val (let '(r, e) := shr_fexp prec64 emax64 z E loc_Exact in
       match shr_m r with
       | Z0 => S754_zero false
       | Zpos m => if Zle_bool e (emax64 - prec64) then S754_finite false m e else S754_infinity false
       | _ => S754_nan
       end) (inject_Z z * p2 E).
Proof.
  intros z E Hz HE. unfold shr_fexp. simpl shr_record_of_loc. unfold fexp, emin, prec64, emax64.
  assert (LE : forall e, e <= 901 -> Zle_bool e (1024 - 53) = true).
  { intros e H. unfold Zle_bool. destruct (e ?= 1024 - 53) eqn:C; auto. apply Z.compare_gt_iff in C. lia. }
  destruct z as [|p|p]; try lia.
  - cbn [Zdigits2]. set (k := Z.max (0 + E - 53) (3 - 1024 - 53) - E). 
    assert (K : k <= 0) by (unfold k; lia). destruct k as [|q|q]; try lia; cbn [shr shr_m val];
    change (inject_Z 0) with 0%Q; ring.
  - cbn [Zdigits2]. pose proof (digits2_pos_bounds p) as [B1 B2]. set (D := Zpos (digits2_pos p)) in *.
    destruct (Z.eq_dec (Zpos p) (2 ^ 53)) as [Q|Q].
    + assert (D = 54).
      { apply digits2_unique; [lia|]. rewrite Q. change (54 - 1) with 53. split; [lia|]. apply Z.pow_lt_mono_r; lia. }
      rewrite H. replace (Z.max (54 + E - 53) (3 - 1024 - 53) - E) with 1 by lia. cbn [shr].
      rewrite Q. change (SpecFloat.iter_pos shr_1 1 {| shr_m := 2 ^ 53; shr_r := false; shr_s := false |})
        with {| shr_m := 2 ^ 52; shr_r := false; shr_s := false |}. cbn [shr_m].
      change (2 ^ 52) with (Zpos 4503599627370496). cbv iota. rewrite LE by lia. cbn [val].
      cbn [val]. rewrite p2_1. change (inject_Z (2 ^ 53)) with (inject_Z (Zpos 4503599627370496) * 2)%Q. ring.
    + assert (D <= 53).
      { destruct (Z_le_gt_dec D 53); auto. assert (2 ^ 53 <= 2 ^ (D - 1)) by (apply Z.pow_le_mono_r; lia). lia. }
      set (k := Z.max (D + E - 53) (3 - 1024 - 53) - E).
      assert (K : k <= 0) by (unfold k; lia). destruct k as [|q|q]; try lia; cbn [shr shr_m]; rewrite LE by lia;
      cbn [val]; reflexivity.
Qed.

Lemma round_aux_near : forall m e l x b, lies_rec (shr_record_of_loc m l) (x * p2 (- e)) -> (x <= p2 b)%Q ->
  e <= b - 52 -> -1000 <= b <= 900 -> near (binary_round_aux prec64 emax64 false m e l) x (p2 (b - 53)).
Proof.
  intros m e l x b L X HE HB. unfold binary_round_aux, shr_fexp at 1.
  set (r0 := shr_record_of_loc m l) in *.
  assert (M0 : shr_m r0 = m) by (unfold r0; destruct l as [|[]]; reflexivity).
  pose proof (lies_floor _ _ L) as [F1 F2]. destruct L as [Hm L0]. assert (L : lies_rec r0 (x * p2 (- e))) by (split; auto).
  rewrite M0 in F1. rewrite M0 in F2. rewrite M0 in Hm.
  pose proof (p2_pos e) as PE.
  assert (INV : (p2 (- e) * p2 e == 1)%Q) by (rewrite <- p2_add; replace (- e + e) with 0 by lia; reflexivity).
  assert (XE : (x == x * p2 (- e) * p2 e)%Q) by (rewrite <- Qmult_assoc, INV; ring).
  set (D := Zdigits2 m).
  assert (DB : (x < p2 (D + e))%Q /\ (D - 1 + e <= b \/ D = 0)).
  { assert (G : (inject_Z m + 1 <= p2 D)%Q /\ ((p2 (D - 1) <= inject_Z m)%Q \/ D = 0) /\ 0 <= D).
    { destruct m as [|p|p]; try lia.
      - unfold D. simpl. split; [|split; [right; reflexivity|lia]]. change (p2 0) with 1%Q. change (inject_Z 0) with 0%Q. lra.
      - unfold D. cbn [Zdigits2]. pose proof (digits2_pos_bounds p) as [B1 B2].
        rewrite (p2_Z (Zpos (digits2_pos p))), (p2_Z (Zpos (digits2_pos p) - 1)) by lia. split; [|split; [left|lia]].
        + change 1%Q with (inject_Z 1). rewrite <- inject_Z_plus, <- Zle_Qle. lia.
        + rewrite <- Zle_Qle. lia. }
    destruct G as (G1 & G2 & G3). split.
    - rewrite p2_add. nra.
    - destruct G2 as [G2|G2]; [left|right; auto]. apply p2_le_inv. rewrite p2_add. nra. }
  destruct DB as [D1 D2].
  destruct (shr_steps r0 e (fexp prec64 emax64 (D + e) - e)) as (n & E & -> & E1 & E2).
  unfold fexp, emin, prec64, emax64 in E2.
  assert (EB : E <= b - 52) by lia. assert (EL : -1074 <= E) by lia. assert (EF : D + e - 53 <= E) by lia.
  apply (shr_iter_lies n) in L. set (r1 := Nat.iter n shr_1 r0) in *.
  set (y := (x * p2 (- e) * p2 (- Z.of_nat n))%Q) in *.
  assert (Y : (y * p2 E == x)%Q).
  { unfold y. rewrite E1, p2_add. 
    assert (I2 : (p2 (- Z.of_nat n) * p2 (Z.of_nat n) == 1)%Q) by (rewrite <- p2_add; replace (- Z.of_nat n + Z.of_nat n) with 0 by lia; reflexivity).
    transitivity (x * (p2 (- e) * p2 e) * (p2 (- Z.of_nat n) * p2 (Z.of_nat n)))%Q; [ring|]. rewrite INV, I2. ring. }
  pose proof (lies_floor _ _ L) as [K1 K2]. pose proof (lies_round _ _ L) as (R1 & R2 & R3).
  set (z := round_nearest_even (shr_m r1) (loc_of_shr_record r1)) in *.
  pose proof (p2_pos E) as PP.
  assert (M53 : shr_m r1 < 2 ^ 53).
  { rewrite Zlt_Qlt. rewrite <- p2_Z by lia. apply Qle_lt_trans with y; auto.
    assert (P : (x < p2 53 * p2 E)%Q).
    { apply Qlt_le_trans with (p2 (D + e)); auto. rewrite <- p2_add. apply p2_le. lia. }
    rewrite <- Y in P. apply Qmult_lt_r in P; auto. }
  destruct L as [Hm1 _].
  pose proof (last_step z E ltac:(lia) ltac:(lia)) as V.
  exists (inject_Z z * p2 E)%Q. split; [exact V|].
  assert (W : (p2 E * (1 # 2) <= p2 (b - 53))%Q).
  { pose proof (p2_le E (b - 52) EB). pose proof (p2_half (b - 52)). replace (b - 52 - 1) with (b - 53) in H0 by lia. lra. }
  split; rewrite <- Y; [assert ((inject_Z z - y) * p2 E <= (1 # 2) * p2 E)%Q by (apply Qmult_le_compat_r; lra)
                       |assert ((y - inject_Z z) * p2 E <= (1 # 2) * p2 E)%Q by (apply Qmult_le_compat_r; lra)]; lra.
Qed.

(** ** Sums *)
Lemma val_nonneg : forall v w, val v w -> (0 <= w)%Q.
Proof.
  intros [s|s| |[] m e] w H; cbn [val] in H; try contradiction; rewrite H; [lra|].
  pose proof (p2_pos e). assert (0 < inject_Z (Zpos m))%Q by reflexivity. nra.
Qed.

Lemma round_near : forall p e x b, (x == inject_Z (Zpos p) * p2 e)%Q -> (x <= p2 b)%Q -> -1000 <= b <= 900 ->
  near (binary_round prec64 emax64 false p e) x (p2 (b - 53)).
Proof.
  intros p e x b X HX HB. unfold binary_round.
  pose proof (digits2_pos_bounds p) as [B1 B2]. set (D := Zpos (digits2_pos p)) in *.
  assert (DB : D - 1 + e <= b).
  { apply p2_le_inv. rewrite p2_add, (p2_Z (D - 1)) by lia. rewrite X in HX. 
    rewrite Zle_Qle in B1. pose proof (p2_pos e). nra. }
  set (f := fexp prec64 emax64 (D + e)). assert (F : f <= b - 52) by (unfold f, fexp, emin, prec64, emax64; lia).
  assert (G : forall q g, g <= f -> (x == inject_Z (Zpos q) * p2 g)%Q -> near (binary_round_aux prec64 emax64 false (Zpos q) g loc_Exact) x (p2 (b - 53))).
  { intros q g Hg Hq. apply round_aux_near; auto; [|lia]. split; [simpl; lia|]. cbn [shr_record_of_loc shr_m shr_r shr_s lies].
    rewrite Hq, <- Qmult_assoc, <- p2_add. replace (g + - g) with 0 by lia. change (p2 0) with 1%Q. ring. }
  unfold shl_align. destruct (f - e) as [|d|d] eqn:EK.
  - apply G; auto; lia.
  - apply G; auto; lia.
  - apply G; [lia|]. rewrite X, Zpower.shift_pos_correct. rewrite inject_Z_mult.
    rewrite Z.pow_pos_fold, <- p2_Z by lia. replace e with (Zpos d + f) by lia. rewrite p2_add. ring.
Qed.

Lemma add_near : forall v w a c b, val v a -> val w c -> (a + c <= p2 b)%Q -> -1000 <= b <= 900 ->
  near (nadd v w) (a + c) (p2 (b - 53)).
Proof.
  intros v w a c b Hv Hw HX HB. pose proof (p2_pos (b - 53)) as PB.
  destruct v as [s|s| |[] m e]; cbn [val] in Hv; try contradiction;
  destruct w as [s'|s'| |[] m' e']; cbn [val] in Hw; try contradiction.
  - exists 0%Q. split; [destruct s, s'; cbn; reflexivity|]. lra.
  - exists (inject_Z (Zpos m') * p2 e')%Q. split; [cbn; reflexivity|]. lra.
  - exists (inject_Z (Zpos m) * p2 e)%Q. split; [cbn; reflexivity|]. lra.
  - unfold nadd, SFadd. set (ez := Z.min e e'). cbn [cond_Zopp].
    pose proof (shl_align_value m e ez ltac:(lia)) as S1. pose proof (shl_align_value m' e' ez ltac:(lia)) as S2.
    set (p1 := fst (shl_align m e ez)) in *. set (p2' := fst (shl_align m' e' ez)) in *.
    cbn [Z.add binary_normalize]. apply round_near; auto.
    rewrite Pos2Z.inj_add, S1, S2, inject_Z_plus, !inject_Z_mult, <- !p2_Z by lia. rewrite Hv, Hw.
    replace e with (e - ez + ez) at 1 by lia. replace e' with (e' - ez + ez) at 1 by lia. rewrite !p2_add. ring.
Qed.

(** ** Quotients *)
Lemma location_lies : forall a m, 0 <= a -> 0 < m ->
  lies_rec (shr_record_of_loc (a / m) (new_location m (a mod m))) (inject_Z a / inject_Z m).
Proof.
  intros a m Ha Hm. pose proof (Z.div_mod a m ltac:(lia)) as DM. pose proof (Z.mod_pos_bound a m Hm) as RB.
  assert (Q0 : 0 <= a / m) by (apply Z.div_pos; lia).
  set (q := a / m) in *. set (r := a mod m) in *. clearbody q r.
  assert (PM : (0 < inject_Z m)%Q) by (change 0%Q with (inject_Z 0); rewrite <- Zlt_Qlt; auto).
  assert (Y : ((inject_Z a / inject_Z m) * inject_Z m == inject_Z q * inject_Z m + inject_Z r)%Q).
  { rewrite Qmult_comm, Qmult_div_r by lra. rewrite DM, inject_Z_plus, inject_Z_mult. ring. }
  set (y := (inject_Z a / inject_Z m)%Q) in *. clearbody y.
  assert (E : forall k, (2 * k ?= m) = Eq -> (inject_Z k * 2 == inject_Z m)%Q).
  { intros k C. apply Z.compare_eq in C. rewrite <- C, inject_Z_mult. change (inject_Z 2) with 2%Q. ring. }
  assert (L : forall k, (2 * k < m) -> (inject_Z k * 2 < inject_Z m)%Q).
  { intros k C. rewrite Zlt_Qlt, inject_Z_mult in C. change (inject_Z 2) with 2%Q in C. lra. }
  assert (G : forall k, (m < 2 * k) -> (inject_Z m < inject_Z k * 2)%Q).
  { intros k C. rewrite Zlt_Qlt, inject_Z_mult in C. change (inject_Z 2) with 2%Q in C. lra. }
  assert (RZ : r = 0 -> (y == inject_Z q)%Q).
  { intros ->. change (inject_Z 0) with 0%Q in Y. apply (Qmult_inj_r _ _ (inject_Z m)); [lra|]. rewrite Y. ring. }
  assert (RP : r <> 0 -> (inject_Z q < y)%Q /\ (y < inject_Z q + 1)%Q).
  { intros N. assert (R0 : (0 < inject_Z r)%Q) by (change 0%Q with (inject_Z 0); rewrite <- Zlt_Qlt; lia).
    assert (R1 : (inject_Z r < inject_Z m)%Q) by (rewrite <- Zlt_Qlt; lia). split; nra. }
  assert (HL : 2 * r < m -> (y < inject_Z q + (1 # 2))%Q) by (intros C; apply L in C; nra).
  assert (HG : m < 2 * r -> (inject_Z q + (1 # 2) < y)%Q) by (intros C; apply G in C; nra).
  assert (HE : 2 * r = m -> (y == inject_Z q + (1 # 2))%Q).
  { intros C. assert (C' : (inject_Z r * 2 == inject_Z m)%Q) by (apply E, Z.compare_eq_iff; auto).
    apply (Qmult_inj_r _ _ (inject_Z m)); [lra|]. rewrite Y. rewrite <- C'. ring. }
  unfold new_location, new_location_even, new_location_odd.
  destruct (Z.even m) eqn:EV.
  - destruct (Zeq_bool r 0) eqn:Z0.
    + apply Zeq_bool_eq in Z0. split; [simpl; lia|]. cbn. auto.
    + apply Zeq_bool_neq in Z0. destruct (RP Z0). destruct (2 * r ?= m) eqn:C; (split; [simpl; lia|]); cbn [shr_record_of_loc shr_m shr_r shr_s lies].
      * apply HE, Z.compare_eq; auto.
      * split; auto.
      * split; auto. apply HG. apply Z.gt_lt; auto.
  - destruct (Zeq_bool r 0) eqn:Z0.
    + apply Zeq_bool_eq in Z0. split; [simpl; lia|]. cbn. auto.
    + apply Zeq_bool_neq in Z0. destruct (RP Z0).
      assert (OD : exists k, m = 2 * k + 1) by (apply Zodd_ex, Zeven.Zodd_bool_iff; rewrite <- Z.negb_even, EV; reflexivity).
      destruct OD as (k & OD).
      destruct (2 * r + 1 ?= m) eqn:C; (split; [simpl; lia|]); cbn [shr_record_of_loc shr_m shr_r shr_s lies].
      * apply Z.compare_eq in C. split; auto. apply HL. lia.
      * assert (2 * r + 1 < m) by auto. split; auto. apply HL. lia.
      * apply Z.compare_gt_iff in C. split; auto. apply HG. lia.
Qed.

Lemma div_near : forall m1 e1 m2 e2 b,
  (inject_Z (Zpos m1) * p2 e1 <= p2 b * (inject_Z (Zpos m2) * p2 e2))%Q -> -1000 <= b <= 900 ->
  near (ndiv (S754_finite false m1 e1) (S754_finite false m2 e2))
    ((inject_Z (Zpos m1) * p2 e1) / (inject_Z (Zpos m2) * p2 e2)) (p2 (b - 53)).
Proof.
  intros m1 e1 m2 e2 b HX HB. unfold ndiv, SFdiv, SFdiv_core_binary. cbn [Zdigits2].
  pose proof (digits2_pos_bounds m1) as [A1 A2]. pose proof (digits2_pos_bounds m2) as [B1 B2].
  set (d1 := Zpos (digits2_pos m1)) in *. set (d2 := Zpos (digits2_pos m2)) in *.
  set (f := fexp prec64 emax64 (d1 + e1 - (d2 + e2))). set (e' := Z.min f (e1 - e2)).
  pose proof (p2_pos e1) as P1. pose proof (p2_pos e2) as P2.
  assert (PM : (0 < inject_Z (Zpos m2))%Q) by reflexivity.
  assert (DB : d1 - 1 + e1 <= b + d2 + e2).
  { apply p2_le_inv. rewrite p2_add, (p2_add (b + d2)), (p2_add b), (p2_Z (d1 - 1)), (p2_Z d2) by lia.
    rewrite Zle_Qle in A1. assert (X2 : (inject_Z (Zpos m2) <= inject_Z (2 ^ d2))%Q) by (rewrite <- Zle_Qle; lia).
    apply Qle_trans with (inject_Z (Zpos m1) * p2 e1)%Q; [apply Qmult_le_compat_r; lra|].
    eapply Qle_trans; [exact HX|]. rewrite <- Qmult_assoc. pose proof (p2_pos b).
    apply Qmult_le_l; auto. apply Qmult_le_compat_r; lra. }
  assert (F : e' <= b - 52) by (unfold e', f, fexp, emin, prec64, emax64; lia).
  set (s := e1 - e2 - e'). assert (S0 : 0 <= s) by (unfold s; lia).
  assert (M' : match s with Z0 => Zpos m1 | Zpos _ => Z.shiftl (Zpos m1) s | Zneg _ => 0 end = Zpos m1 * 2 ^ s).
  { destruct s as [|k|k] eqn:ES; try lia. rewrite Z.shiftl_mul_pow2 by lia. reflexivity. }
  rewrite M'. set (a := Zpos m1 * 2 ^ s) in *.
  assert (A0 : 0 <= a) by (unfold a; assert (0 < 2 ^ s) by (apply Z.pow_pos_nonneg; lia); nia).
  destruct (Z.div_eucl a (Zpos m2)) as [q r] eqn:DE.
  assert (QE : q = a / Zpos m2) by (unfold Z.div; rewrite DE; reflexivity).
  assert (RE : r = a mod Zpos m2) by (unfold Z.modulo; rewrite DE; reflexivity).
  rewrite QE, RE. cbn [xorb].
  assert (AS : (inject_Z a * p2 (e' + e2) == inject_Z (Zpos m1) * p2 e1)%Q).
  { unfold a. rewrite inject_Z_mult, <- p2_Z, <- Qmult_assoc, <- p2_add by lia. 
    replace (s + (e' + e2)) with e1 by (unfold s; lia). reflexivity. }
  set (x := (inject_Z (Zpos m1) * p2 e1 / (inject_Z (Zpos m2) * p2 e2))%Q).
  assert (NZ : ~ (inject_Z (Zpos m2) * p2 e2 == 0)%Q) by nra.
  assert (XM : (x * (inject_Z (Zpos m2) * p2 e2) == inject_Z (Zpos m1) * p2 e1)%Q).
  { unfold x. rewrite Qmult_comm. apply Qmult_div_r; auto. }
  assert (YX : (inject_Z a / inject_Z (Zpos m2) == x * p2 (- e'))%Q).
  { apply (Qmult_inj_r _ _ (inject_Z (Zpos m2) * p2 (e' + e2))).
    - pose proof (p2_pos (e' + e2)). nra.
    - transitivity (inject_Z a * p2 (e' + e2))%Q; [field; lra|]. rewrite AS, <- XM, p2_add.
      assert (I2 : (p2 (- e') * p2 e' == 1)%Q) by (rewrite <- p2_add; replace (- e' + e') with 0 by lia; reflexivity).
      transitivity (x * (inject_Z (Zpos m2) * p2 e2) * (p2 (- e') * p2 e'))%Q; [rewrite I2; ring|ring]. }
  apply round_aux_near; auto.
  - pose proof (location_lies a (Zpos m2) A0 ltac:(lia)) as L.
    destruct (shr_record_of_loc (a / Zpos m2) (new_location (Zpos m2) (a mod Zpos m2))) as [m0 r0 s0].
    destruct L as [L1 L2]. split; auto. cbn [shr_m shr_r shr_s] in *. destruct r0, s0; cbn [lies] in *; rewrite <- YX; auto.
  - pose proof (p2_pos b). rewrite <- XM in HX. apply Qmult_le_r in HX; auto. nra.
Qed.
