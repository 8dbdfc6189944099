(** TiffP.v -- GetBits and SetBits on bit strings, and ReversePredictor's TIFF
    predictor. *)
From Verif Require Import Base BaseP Lexer Bits Filters SpecLex SpecFilters FiltersP PngP.
From Coq Require Import Strings.String.
Local Open Scope Z_scope.

(** ** Bits of a byte string *)
Lemma row_at_range : forall d i, 0 <= row_at d i < 256.
Proof. intros d i. unfold row_at. destruct (i <? 0); [lia|]. apply bv_range. Qed.

Lemma row_at_out : forall d i, zlen d <= i -> row_at d i = 0.
Proof.
  intros d i H. unfold row_at. destruct (i <? 0); auto. rewrite nth_overflow; auto. unfold zlen in H. lia.
Qed.

(** bit [j], most significant bit of the first byte first *)
Definition bitat (d : bytes) (j : Z) : bool := Z.testbit (row_at d (j / 8)) (7 - j mod 8).

Lemma sample_bits_length : forall n v, List.length (sample_bits n v) = n.
Proof. induction n as [|n IH]; intros v; simpl; auto. Qed.

Lemma sample_bits_nth : forall n v k, (k < n)%nat -> nth k (sample_bits n v) false = Z.testbit v (Z.of_nat (n - 1 - k)).
Proof.
  induction n as [|n IH]; intros v k H; [lia|]. destruct k as [|k]; cbn [sample_bits nth].
  - f_equal. lia.
  - rewrite IH by lia. f_equal. lia.
Qed.

Lemma byte_bits_length : forall d, zlen (byte_bits d) = 8 * zlen d.
Proof.
  induction d as [|b d IH]; [reflexivity|]. unfold byte_bits in *. cbn [flat_map].
  rewrite zlen_app, zlen_cons, IH. unfold zlen at 1. rewrite sample_bits_length. lia.
Qed.

Lemma byte_bits_nth : forall d j, (j < 8 * List.length d)%nat -> nth j (byte_bits d) false = bitat d (Z.of_nat j).
Proof.
  induction d as [|b d IH]; intros j H; [simpl in H; lia|]. unfold byte_bits. cbn [flat_map].
  change (flat_map (fun b => sample_bits 8 (bv b)) d) with (byte_bits d).
  destruct (Nat.lt_ge_cases j 8) as [Hj|Hj].
  - rewrite app_nth1 by (rewrite sample_bits_length; auto). rewrite sample_bits_nth by auto. unfold bitat.
    rewrite Z.div_small, Z.mod_small by lia. change (row_at (b :: d) 0) with (bv b). f_equal. lia.
  - rewrite app_nth2 by (rewrite sample_bits_length; auto). rewrite sample_bits_length, IH by (simpl in H; lia).
    unfold bitat. rewrite Nat2Z.inj_sub by auto. change (Z.of_nat 8) with 8.
    replace (Z.of_nat j) with ((Z.of_nat j - 8) + 1 * 8) at 3 4 by lia.
    rewrite Z.mod_add, Z.div_add by lia. f_equal. unfold row_at.
    assert (0 <= (Z.of_nat j - 8) / 8) by (apply Z.div_pos; lia).
    destruct (_ <? 0) eqn:E1; [apply Z.ltb_lt in E1; lia|].
    destruct ((Z.of_nat j - 8) / 8 + 1 <? 0) eqn:E2; [apply Z.ltb_lt in E2; lia|].
    replace (Z.to_nat ((Z.of_nat j - 8) / 8 + 1)) with (S (Z.to_nat ((Z.of_nat j - 8) / 8))) by lia. reflexivity.
Qed.

Lemma sample_bits_inj : forall n v w, 0 <= v < 2 ^ Z.of_nat n -> 0 <= w < 2 ^ Z.of_nat n ->
  sample_bits n v = sample_bits n w -> v = w.
Proof.
  intros n v w Hv Hw E. apply Z.bits_inj'. intros k Hk.
  destruct (Z.lt_ge_cases k (Z.of_nat n)) as [H|H].
  - pose proof (sample_bits_nth n v (n - 1 - Z.to_nat k) ltac:(lia)) as A.
    pose proof (sample_bits_nth n w (n - 1 - Z.to_nat k) ltac:(lia)) as B. rewrite E in A. rewrite A in B.
    replace (Z.of_nat (n - 1 - (n - 1 - Z.to_nat k))) with k in B by lia. exact B.
  - assert (S : forall x, 0 <= x < 2 ^ Z.of_nat n -> Z.testbit x k = false).
    { intros x Hx. destruct (Z.eq_dec x 0) as [->|N]; [apply Z.bits_0|]. apply Z.bits_above_log2; [lia|].
      apply Z.log2_lt_pow2; [lia|]. apply Z.lt_le_trans with (2 ^ Z.of_nat n); [lia|]. apply Z.pow_le_mono_r; lia. }
    rewrite !S by auto. reflexivity.
Qed.

Lemma app_split : forall A (a b c d : list A), a ++ b = c ++ d -> List.length a = List.length c -> a = c /\ b = d.
Proof.
  induction a as [|x a IH]; intros b [|y c] d E L; try discriminate; [auto|].
  injection E as -> E. injection L as L. destruct (IH _ _ _ E L) as [-> ->]. auto.
Qed.

Lemma byte_bits_inj : forall a b, byte_bits a = byte_bits b -> a = b.
Proof.
  induction a as [|x a IH]; intros [|y b] E; try reflexivity; try discriminate.
  unfold byte_bits in E. cbn [flat_map] in E. apply app_split in E; [|rewrite !sample_bits_length; reflexivity].
  destruct E as [E1 E2]. f_equal; [|apply IH; exact E2].
  apply bv_inj. apply (sample_bits_inj 8); auto; apply bv_range.
Qed.

Lemma sample_bits_mod : forall n v, sample_bits n (v mod 2 ^ Z.of_nat n) = sample_bits n v.
Proof.
  intros n v. assert (H : forall m, (m <= n)%nat -> sample_bits m (v mod 2 ^ Z.of_nat n) = sample_bits m v).
  { induction m as [|m IH]; intros Hm; [reflexivity|]. cbn [sample_bits]. rewrite IH by lia. f_equal.
    apply Z.mod_pow2_bits_low. lia. }
  apply H. lia.
Qed.

(** ** GetBits *)
Lemma testbit_cat : forall a b k, 0 <= b < 256 -> 0 <= k ->
  Z.testbit (a * 256 + b) k = if k <? 8 then Z.testbit b k else Z.testbit a (k - 8).
Proof.
  intros a b k Hb Hk. destruct (k <? 8) eqn:E; [apply Z.ltb_lt in E|apply Z.ltb_ge in E].
  - rewrite <- (Z.mod_pow2_bits_low (a * 256 + b) 8 k) by lia. change (2 ^ 8) with 256.
    rewrite Z.add_comm, Z.mod_add, Z.mod_small by lia. reflexivity.
  - replace k with ((k - 8) + 8) at 1 by lia. rewrite <- Z.div_pow2_bits by lia. change (2 ^ 8) with 256.
    rewrite Z.div_add_l by lia. rewrite Z.div_small by lia. rewrite Z.add_0_r. reflexivity.
Qed.

Definition window (d : bytes) (q : Z) : Z :=
  ((row_at d q * 256 + row_at d (q + 1)) * 256 + row_at d (q + 2)) * 256 + row_at d (q + 3).

Lemma window_range : forall d q, 0 <= window d q < two32.
Proof.
  intros d q. unfold window. pose proof (row_at_range d q). pose proof (row_at_range d (q + 1)).
  pose proof (row_at_range d (q + 2)). pose proof (row_at_range d (q + 3)). unfold two32. lia.
Qed.

Lemma window_bit : forall d q k, 0 <= k < 32 -> Z.testbit (window d q) k = bitat d (8 * q + (31 - k)).
Proof.
  intros d q k Hk. unfold window, bitat.
  pose proof (row_at_range d q). pose proof (row_at_range d (q + 1)).
  pose proof (row_at_range d (q + 2)). pose proof (row_at_range d (q + 3)).
  replace (8 * q + (31 - k)) with ((31 - k) + q * 8) by lia. rewrite Z.mod_add, Z.div_add by lia.
  assert (C : forall i, 0 <= i <= 3 -> 8 * i <= k < 8 * i + 8 -> (31 - k) / 8 = 3 - i /\ (31 - k) mod 8 = 7 - (k - 8 * i)).
  { intros i Hi Hki. split.
    - symmetry. apply (Z.div_unique_pos _ _ _ (7 - (k - 8 * i))); lia.
    - symmetry. apply (Z.mod_unique_pos _ _ (3 - i)); lia. }
  rewrite testbit_cat by lia. destruct (k <? 8) eqn:E0; [apply Z.ltb_lt in E0|apply Z.ltb_ge in E0].
  { destruct (C 0) as [-> ->]; try lia. replace (3 - 0 + q) with (q + 3) by lia. f_equal. lia. }
  rewrite testbit_cat by lia. destruct (k - 8 <? 8) eqn:E1; [apply Z.ltb_lt in E1|apply Z.ltb_ge in E1].
  { destruct (C 1) as [-> ->]; try lia. replace (3 - 1 + q) with (q + 2) by lia. f_equal. lia. }
  rewrite testbit_cat by lia. destruct (k - 8 - 8 <? 8) eqn:E2; [apply Z.ltb_lt in E2|apply Z.ltb_ge in E2].
  { destruct (C 2) as [-> ->]; try lia. replace (3 - 2 + q) with (q + 1) by lia. f_equal. lia. }
  destruct (C 3) as [-> ->]; try lia. replace (3 - 3 + q) with q by lia. f_equal. lia.
Qed.

Lemma bits_byte_at : forall d i, 0 <= i -> bits_byte d i = Some (row_at d i).
Proof.
  intros d i H. unfold bits_byte. destruct (i <? zlen d) eqn:E; [apply Z.ltb_lt in E|apply Z.ltb_ge in E].
  - apply zget_row. lia.
  - rewrite row_at_out by lia. reflexivity.
Qed.

Lemma get_bits_window : forall d p n, 0 <= p ->
  get_bits d p n = Some (Z.shiftr (wrap32 (Z.shiftl (window d (p / 8)) (p mod 8))) (32 - n)).
Proof.
  intros d p n H. unfold get_bits. rewrite Z.quot_div_nonneg, Z.rem_mod_nonneg by lia.
  pose proof (Z.div_pos p 8 H ltac:(lia)). rewrite !bits_byte_at by lia.
  pose proof (Z.mod_pos_bound p 8 ltac:(lia)).
  destruct (p mod 8 <? 0) eqn:E; [apply Z.ltb_lt in E; lia|]. reflexivity.
Qed.

Lemma get_bits_bit : forall d p n v k, 0 <= p -> 0 <= n <= 24 -> get_bits d p n = Some v ->
  0 <= k -> Z.testbit v k = (k <? n) && bitat d (p + n - 1 - k).
Proof.
  intros d p n v k Hp Hn E Hk. rewrite get_bits_window in E by auto.
  assert (Ev : v = Z.shiftr (wrap32 (Z.shiftl (window d (p / 8)) (p mod 8))) (32 - n)) by congruence. subst v. clear E.
  pose proof (Z.mod_pos_bound p 8 ltac:(lia)). pose proof (Z.div_mod p 8 ltac:(lia)).
  rewrite Z.shiftr_spec by lia. unfold wrap32. replace two32 with (2 ^ 32) by reflexivity.
  destruct (k <? n) eqn:E; [apply Z.ltb_lt in E|apply Z.ltb_ge in E]; rewrite ?andb_true_l, ?andb_false_l.
  - rewrite Z.mod_pow2_bits_low by lia. rewrite Z.shiftl_spec by lia.
    rewrite window_bit by lia. f_equal. lia.
  - rewrite Z.mod_pow2_bits_high by lia. reflexivity.
Qed.

(** reading the field that starts behind [a] *)
Lemma get_bits_field : forall d a n v b, (1 <= n <= 16)%nat -> byte_bits d = a ++ sample_bits n v ++ b ->
  get_bits d (zlen a) (Z.of_nat n) = Some (v mod 2 ^ Z.of_nat n).
Proof.
  intros d a n v b Hn E. pose proof (zlen_nonneg _ a).
  destruct (get_bits d (zlen a) (Z.of_nat n)) as [w|] eqn:G; [|rewrite get_bits_window in G by auto; discriminate].
  f_equal. apply Z.bits_inj'. intros k Hk. rewrite (get_bits_bit d (zlen a) (Z.of_nat n) w k); auto; try lia.
  destruct (k <? Z.of_nat n) eqn:Ek; [apply Z.ltb_lt in Ek|apply Z.ltb_ge in Ek]; cbn [andb].
  - rewrite Z.mod_pow2_bits_low by lia.
    set (j := (List.length a + (n - 1 - Z.to_nat k))%nat).
    assert (J : zlen a + Z.of_nat n - 1 - k = Z.of_nat j) by (unfold j, zlen; lia).
    rewrite J, <- byte_bits_nth.
    + rewrite E, app_nth2 by (unfold j; lia). unfold j. rewrite app_nth1 by (rewrite sample_bits_length; lia).
      rewrite sample_bits_nth by lia. f_equal. lia.
    + pose proof (byte_bits_length d) as L. rewrite E, !zlen_app in L. unfold zlen in L.
      rewrite sample_bits_length in L. unfold j. lia.
  - rewrite Z.mod_pow2_bits_high by lia. reflexivity.
Qed.

(** ** SetBits *)
Lemma upd_length : forall d i x, 0 <= i < zlen d -> zlen (upd d i x) = zlen d.
Proof.
  intros d i x H. unfold upd, zlen in *. rewrite app_length, firstn_length. cbn [List.length]. rewrite skipn_length. lia.
Qed.

Lemma upd_at : forall d i x j, 0 <= i < zlen d -> 0 <= j -> row_at (upd d i x) j = if j =? i then bv x else row_at d j.
Proof.
  intros d i x j Hi Hj. unfold upd, row_at. destruct (j <? 0) eqn:E; [apply Z.ltb_lt in E; lia|].
  unfold zlen in Hi. assert (L : List.length (firstn (Z.to_nat i) d) = Z.to_nat i) by (rewrite firstn_length; lia).
  destruct (j =? i) eqn:E1; [apply Z.eqb_eq in E1; subst|apply Z.eqb_neq in E1].
  - rewrite app_nth2, L, Nat.sub_diag by lia. reflexivity.
  - destruct (Z.lt_ge_cases j i) as [Hl|Hl].
    + rewrite app_nth1 by lia. f_equal. rewrite <- (firstn_skipn (Z.to_nat i) d) at 2. rewrite app_nth1 by lia. reflexivity.
    + rewrite app_nth2 by lia. rewrite L. f_equal.
      replace (Z.to_nat j - Z.to_nat i)%nat with (S (Z.to_nat j - S (Z.to_nat i))) by lia. cbn [nth].
      rewrite <- (firstn_skipn (S (Z.to_nat i)) d) at 2. rewrite app_nth2; rewrite firstn_length; [|lia].
      f_equal. lia.
Qed.

Lemma set_loop_spec : forall k d q i dv, 0 <= q + i -> exists d', set_bits_loop k d q i dv = Some d' /\ zlen d' = zlen d /\
  forall j, 0 <= j < zlen d -> row_at d' j =
    if (q + i <=? j) && (j <? q + i + Z.of_nat k) then bv (zb (Z.shiftr dv (32 - (j - q + 1) * 8))) else row_at d j.
Proof.
  induction k as [|k IH]; intros d q i dv H; cbn [set_bits_loop].
  - exists d. split; auto. split; auto. intros j Hj. destruct ((q + i <=? j) && _) eqn:E; auto.
    apply andb_true_iff in E. destruct E as [E1 E2]. apply Z.leb_le in E1. apply Z.ltb_lt in E2. lia.
  - destruct (q + i <? zlen d) eqn:E; [apply Z.ltb_lt in E|apply Z.ltb_ge in E].
    + destruct (q + i <? 0) eqn:E0; [apply Z.ltb_lt in E0; lia|].
      destruct (IH (upd d (q + i) (zb (Z.shiftr dv (32 - (i + 1) * 8)))) q (i + 1) dv ltac:(lia)) as (d' & H1 & H2 & H3).
      rewrite upd_length in * by lia. exists d'. split; auto. split; auto. intros j Hj. rewrite H3 by auto.
      rewrite upd_at by lia.
      destruct (Z.eq_dec j (q + i)) as [->|N].
      * rewrite Z.eqb_refl. replace (q + (i + 1) <=? q + i) with false by (symmetry; apply Z.leb_gt; lia). cbn [andb].
        replace (q + i <=? q + i) with true by (symmetry; apply Z.leb_le; lia).
        replace (q + i <? q + i + Z.of_nat (S k)) with true by (symmetry; apply Z.ltb_lt; lia). cbn [andb].
        repeat f_equal. lia.
      * replace (j =? q + i) with false by (symmetry; apply Z.eqb_neq; auto).
        replace (q + (i + 1) <=? j) with (q + i <=? j).
        2:{ destruct (q + i <=? j) eqn:A, (q + (i + 1) <=? j) eqn:B; auto;
            rewrite ?Z.leb_le, ?Z.leb_gt in *; lia. }
        replace (q + (i + 1) + Z.of_nat k) with (q + i + Z.of_nat (S k)) by lia. reflexivity.
    + exists d. split; auto. split; auto. intros j Hj. destruct ((q + i <=? j) && _) eqn:E1; auto.
      apply andb_true_iff in E1. destruct E1 as [E1 E2]. apply Z.leb_le in E1. apply Z.ltb_lt in E2. lia.
Qed.

(** the new 32-bit window *)
Lemma insert_bit : forall dv v n s k, 0 <= dv < two32 -> 0 <= n -> 0 <= s -> n + s <= 32 -> 0 <= k < 32 ->
  Z.testbit (wrap32 (dv + wrap32 (wrap32 (Z.shiftl (v mod Z.shiftl 1 n) s) -
                                  Z.land dv (wrap32 (Z.shiftl (Z.shiftl 1 n - 1) s))))) k =
  if (s <=? k) && (k <? s + n) then Z.testbit v (k - s) else Z.testbit dv k.
Proof.
  intros dv v n s k Hd Hn Hs Hns Hk. rewrite Z.shiftl_1_l.
  assert (P : 0 < 2 ^ n) by (apply Z.pow_pos_nonneg; lia).
  assert (Q : 2 ^ n * 2 ^ s <= two32).
  { rewrite <- Z.pow_add_r by lia. change two32 with (2 ^ 32). apply Z.pow_le_mono_r; lia. }
  assert (Ps : 0 < 2 ^ s) by (apply Z.pow_pos_nonneg; lia).
  pose proof (Z.mod_pos_bound v (2 ^ n) P) as Hv.
  set (u := v mod 2 ^ n) in *.
  assert (M : wrap32 (Z.shiftl (2 ^ n - 1) s) = Z.shiftl (Z.ones n) s).
  { rewrite Z.ones_equiv. replace (Z.pred (2 ^ n)) with (2 ^ n - 1) by lia. unfold wrap32. apply Z.mod_small.
    rewrite Z.shiftl_mul_pow2 by lia. nia. }
  assert (U : wrap32 (Z.shiftl u s) = Z.shiftl u s).
  { unfold wrap32. apply Z.mod_small. rewrite Z.shiftl_mul_pow2 by lia. nia. }
  rewrite M, U. set (F := Z.shiftl (Z.ones n) s). set (X := Z.shiftl u s).
  unfold wrap32. rewrite Zplus_mod_idemp_r.
  assert (S1 : dv - Z.land dv F = Z.ldiff dv F).
  { rewrite Z.sub_nocarry_ldiff.
    - apply Z.bits_inj'. intros i Hi. rewrite !Z.ldiff_spec, Z.land_spec. destruct (Z.testbit dv i), (Z.testbit F i); reflexivity.
    - apply Z.bits_inj'. intros i Hi. rewrite Z.ldiff_spec, Z.land_spec, Z.bits_0. destruct (Z.testbit dv i), (Z.testbit F i); reflexivity. }
  replace (dv + (X - Z.land dv F)) with (Z.ldiff dv F + X) by lia.
  assert (FX : forall i, 0 <= i -> Z.testbit F i = (s <=? i) && (i <? s + n)).
  { intros i Hi. unfold F. destruct (s <=? i) eqn:E; [apply Z.leb_le in E|apply Z.leb_gt in E]; cbn [andb].
    - rewrite Z.shiftl_spec by lia. destruct (i <? s + n) eqn:E2; [apply Z.ltb_lt in E2|apply Z.ltb_ge in E2].
      + apply Z.ones_spec_low. lia.
      + apply Z.ones_spec_high. lia.
    - apply Z.shiftl_spec_low. lia. }
  assert (XB : forall i, 0 <= i -> Z.testbit X i = (s <=? i) && (i <? s + n) && Z.testbit v (i - s)).
  { intros i Hi. unfold X, u. destruct (s <=? i) eqn:E; [apply Z.leb_le in E|apply Z.leb_gt in E]; cbn [andb].
    - rewrite Z.shiftl_spec by lia. destruct (i <? s + n) eqn:E2; [apply Z.ltb_lt in E2|apply Z.ltb_ge in E2]; cbn [andb].
      + apply Z.mod_pow2_bits_low. lia.
      + apply Z.mod_pow2_bits_high. lia.
    - apply Z.shiftl_spec_low. lia. }
  rewrite Z.add_nocarry_lxor.
  2:{ apply Z.bits_inj'. intros i Hi. rewrite Z.land_spec, Z.ldiff_spec, Z.bits_0, FX, XB by auto.
      destruct ((s <=? i) && (i <? s + n)); cbn [negb andb]; rewrite ?andb_false_r; reflexivity. }
  change two32 with (2 ^ 32). rewrite Z.mod_pow2_bits_low by lia.
  rewrite Z.lxor_spec, Z.ldiff_spec, FX, XB by lia.
  destruct ((s <=? k) && (k <? s + n)); cbn [negb andb]; rewrite ?andb_false_r, ?andb_true_r; [apply xorb_false_l|apply xorb_false_r].
Qed.

Lemma set_bits_bit : forall d p n v, 0 <= p -> 1 <= n <= 16 -> exists d', set_bits d p n v = Some d' /\ zlen d' = zlen d /\
  forall j, 0 <= j < 8 * zlen d -> bitat d' j = if (p <=? j) && (j <? p + n) then Z.testbit v (n - 1 - (j - p)) else bitat d j.
Proof.
  intros d p n v Hp Hn. unfold set_bits.
  rewrite Z.quot_div_nonneg, Z.rem_mod_nonneg by lia.
  pose proof (Z.div_pos p 8 Hp ltac:(lia)) as Hq. pose proof (Z.mod_pos_bound p 8 ltac:(lia)) as Hm.
  pose proof (Z.div_mod p 8 ltac:(lia)) as Hpq. set (q := p / 8) in *. set (m := p mod 8) in *.
  assert (G : get_bits d (q * 8) 32 = Some (window d q)).
  { rewrite get_bits_window by lia. rewrite Z.div_mul, Z.mod_mul by lia. rewrite Z.shiftl_0_r. change (32 - 32) with 0.
    rewrite Z.shiftr_0_r. unfold wrap32. rewrite Z.mod_small by apply window_range. reflexivity. }
  rewrite G. set (dv := wrap32 _).
  assert (DV : forall k, 0 <= k < 32 -> Z.testbit dv k =
     if (32 - n - m <=? k) && (k <? 32 - n - m + n) then Z.testbit v (k - (32 - n - m)) else Z.testbit (window d q) k).
  { intros k Hk. unfold dv. apply insert_bit; try lia. apply window_range. }
  clearbody dv. destruct (set_loop_spec 4 d q 0 dv ltac:(lia)) as (d' & H1 & H2 & H3). exists d'. split; auto. split; auto.
  intros j Hj. unfold bitat. pose proof (Z.mod_pos_bound j 8 ltac:(lia)) as Hjm. pose proof (Z.div_mod j 8 ltac:(lia)) as Hjq.
  rewrite H3 by (split; [apply Z.div_pos; lia|apply Z.div_lt_upper_bound; lia]).
  rewrite Z.add_0_r. change (Z.of_nat 4) with 4.
  destruct ((q <=? j / 8) && (j / 8 <? q + 4)) eqn:E.
  - apply andb_true_iff in E. destruct E as [E1 E2]. apply Z.leb_le in E1. apply Z.ltb_lt in E2.
    rewrite bv_zb. change 256 with (2 ^ 8). rewrite Z.mod_pow2_bits_low by lia. rewrite Z.shiftr_spec by lia.
    rewrite DV by lia. set (k := 7 - j mod 8 + (32 - (j / 8 - q + 1) * 8)).
    assert (K : k = 31 - (j - 8 * q)) by (unfold k; lia).
    replace ((32 - n - m <=? k) && (k <? 32 - n - m + n)) with ((p <=? j) && (j <? p + n)).
    2:{ destruct (p <=? j) eqn:A, (j <? p + n) eqn:B, (32 - n - m <=? k) eqn:C, (k <? 32 - n - m + n) eqn:D; auto;
        rewrite ?Z.leb_le, ?Z.leb_gt, ?Z.ltb_lt, ?Z.ltb_ge in *; lia. }
    destruct ((p <=? j) && (j <? p + n)).
    + f_equal. lia.
    + rewrite window_bit by lia. unfold bitat. replace (8 * q + (31 - k)) with j by lia. reflexivity.
  - destruct ((p <=? j) && (j <? p + n)) eqn:A; auto. apply andb_true_iff in A. destruct A as [A1 A2].
    apply Z.leb_le in A1. apply Z.ltb_lt in A2. apply andb_false_iff in E.
    assert (q <= j / 8) by (unfold q; apply Z.div_le_mono; lia).
    destruct E as [E|E]; [apply Z.leb_gt in E; lia|apply Z.ltb_ge in E; lia].
Qed.

Lemma set_bits_field : forall d a n v w b, (1 <= n <= 16)%nat -> byte_bits d = a ++ sample_bits n v ++ b ->
  exists d', set_bits d (zlen a) (Z.of_nat n) w = Some d' /\ byte_bits d' = a ++ sample_bits n w ++ b.
Proof.
  intros d a n v w b Hn E. pose proof (zlen_nonneg _ a).
  destruct (set_bits_bit d (zlen a) (Z.of_nat n) w) as (d' & H1 & H2 & H3); try lia. exists d'. split; auto.
  pose proof (byte_bits_length d) as L. pose proof (byte_bits_length d') as L'. rewrite H2 in L'.
  assert (La : zlen (byte_bits d) = zlen a + (Z.of_nat n + zlen b)).
  { rewrite E, !zlen_app. unfold zlen at 2. rewrite sample_bits_length. reflexivity. }
  apply (nth_ext _ _ false false).
  - rewrite !app_length, sample_bits_length. unfold zlen in *. lia.
  - intros j Hj. assert (Hj' : 0 <= Z.of_nat j < 8 * zlen d) by (unfold zlen in *; lia).
    rewrite byte_bits_nth by (unfold zlen in *; lia). rewrite H3 by auto.
    destruct ((zlen a <=? Z.of_nat j) && (Z.of_nat j <? zlen a + Z.of_nat n)) eqn:Q.
    + apply andb_true_iff in Q. destruct Q as [Q1 Q2]. apply Z.leb_le in Q1. apply Z.ltb_lt in Q2. unfold zlen in *.
      rewrite app_nth2 by lia. rewrite app_nth1 by (rewrite sample_bits_length; lia). rewrite sample_bits_nth by lia.
      f_equal. lia.
    + rewrite <- byte_bits_nth by (unfold zlen in *; lia). rewrite E.
      apply andb_false_iff in Q. unfold zlen in *. destruct Q as [Q|Q]; [apply Z.leb_gt in Q|apply Z.ltb_ge in Q].
      * rewrite !app_nth1 by lia. reflexivity.
      * rewrite !(app_nth2 a) by lia. rewrite !app_nth2 by (rewrite sample_bits_length; lia).
        rewrite !sample_bits_length. reflexivity.
Qed.

(** ** The TIFF loop *)
Lemma fm_length : forall n l, zlen (flat_map (sample_bits n) l) = Z.of_nat n * zlen l.
Proof.
  intros n l. induction l as [|v l IH]; [simpl; rewrite Z.mul_0_r; reflexivity|]. cbn [flat_map].
  rewrite zlen_app, zlen_cons, IH. unfold zlen at 1. rewrite sample_bits_length. lia.
Qed.

Section Loop.
  Variables (bpc : nat) (colors columns rw : Z).
  Hypothesis Hbpc : (1 <= bpc <= 16)%nat.
  Hypothesis Hcolors : 1 <= colors.
  Hypothesis Hcolumns : 1 <= columns.

  (** [ds] are the differences still to undo behind the decoded samples [os] *)
  Fixpoint pending (os ds rs : list Z) : Prop :=
    match ds, rs with
    | [], [] => True
    | d :: ds', o :: rs' =>
        0 <= o < 2 ^ Z.of_nat bpc /\
        (exists o1 u o2, os = o1 ++ u :: o2 /\ zlen o2 = colors - 1 /\ d = (o - u) mod 2 ^ Z.of_nat bpc) /\
        pending (os ++ [o]) ds' rs'
    | _, _ => False
    end.

  Notation sb := (sample_bits bpc).
  Notation n := (Z.of_nat bpc).

  Lemma tiff_row : forall ds rs os c i P T data r, pending os ds rs ->
    byte_bits data = P ++ flat_map sb os ++ flat_map sb ds ++ T ->
    zlen P = r * rw * 8 -> 8 * zlen data < two63 -> 0 <= r -> 0 <= rw ->
    zlen os = c * colors + i -> 0 <= i < colors -> 1 <= c -> zlen os + zlen ds = colors * columns ->
    exists k data', byte_bits data' = P ++ flat_map sb os ++ flat_map sb rs ++ T /\
      forall f, r * rw < zlen data ->
        tiff_loop (k + f) rw n colors columns r c i data = tiff_loop f rw n colors columns (r + 1) 1 0 data'.
  Proof.
    induction ds as [|d ds IH]; intros rs os c i P T data r Hpend Hbits HP Hsmall Hr Hrw Hos Hi Hc Hlen.
    - destruct rs; [|destruct Hpend]. rewrite zlen_nil in Hlen. exists 1%nat, data. split; auto. intros f Hf.
      cbn [plus tiff_loop]. assert (columns <= c) by nia.
      destruct (r * rw <? zlen data) eqn:E1; [|apply Z.ltb_ge in E1; lia].
      destruct (c <? columns) eqn:E2; [apply Z.ltb_lt in E2; lia|]. reflexivity.
    - destruct rs as [|o rs]; [destruct Hpend|]. destruct Hpend as (Ho & (o1 & u & o2 & Eos & Lo2 & Ed) & Hp).
      pose proof (zlen_nonneg _ ds) as Lds. rewrite zlen_cons in Hlen.
      assert (Hcc : c < columns) by nia.
      (* bit positions *)
      pose proof (byte_bits_length data) as L. rewrite Hbits in L. cbn [flat_map] in L.
      rewrite !zlen_app, !fm_length in L. unfold zlen at 3 in L. rewrite sample_bits_length in L.
      pose proof (zlen_nonneg _ T) as LT. pose proof (zlen_nonneg _ o1) as Lo1.
      assert (Los : zlen os = zlen o1 + colors) by (rewrite Eos, zlen_app, zlen_cons; lia).
      assert (Hpos : zlen (P ++ flat_map sb os) = r * rw * 8 + (c * colors + i) * n).
      { rewrite zlen_app, fm_length, HP, Hos. ring. }
      assert (Hprev : zlen (P ++ flat_map sb o1) = r * rw * 8 + (c * colors + i) * n - colors * n).
      { rewrite zlen_app, fm_length, HP. replace (zlen o1) with (c * colors + i - colors) by lia. ring. }
      assert (Q1 : wrap64 (c * colors) = c * colors) by (apply wrap64_small; unfold two63 in *; nia).
      assert (Q2 : wrap64 (c * colors + i) = c * colors + i) by (apply wrap64_small; unfold two63 in *; nia).
      assert (Q3 : wrap64 ((c * colors + i) * n) = (c * colors + i) * n) by (apply wrap64_small; unfold two63 in *; nia).
      assert (0 <= r * rw) by nia.
      assert (Q4 : wrap64 (r * rw * 8 + (c * colors + i) * n) = r * rw * 8 + (c * colors + i) * n)
        by (apply wrap64_small; unfold two63 in *; nia).
      assert (Q5 : wrap64 (colors * n) = colors * n) by (apply wrap64_small; unfold two63 in *; nia).
      assert (Q6 : wrap64 (r * rw * 8 + (c * colors + i) * n - colors * n) = r * rw * 8 + (c * colors + i) * n - colors * n)
        by (apply wrap64_small; unfold two63 in *; nia).
      assert (G1 : get_bits data (r * rw * 8 + (c * colors + i) * n - colors * n) n = Some (u mod 2 ^ n)).
      { rewrite <- Hprev. apply (get_bits_field data _ bpc u (flat_map sb o2 ++ flat_map sb (d :: ds) ++ T)); auto.
        rewrite Hbits, Eos, flat_map_app. cbn [flat_map]. rewrite <- !app_assoc. reflexivity. }
      assert (G2 : get_bits data (r * rw * 8 + (c * colors + i) * n) n = Some (d mod 2 ^ n)).
      { rewrite <- Hpos. apply (get_bits_field data _ bpc d (flat_map sb ds ++ T)); auto.
        rewrite Hbits. cbn [flat_map]. rewrite <- !app_assoc. reflexivity. }
      destruct (set_bits_field data (P ++ flat_map sb os) bpc d (wrap32 (d mod 2 ^ n + u mod 2 ^ n)) (flat_map sb ds ++ T))
        as (data1 & S1 & B1); auto.
      { rewrite Hbits. cbn [flat_map]. rewrite <- !app_assoc. reflexivity. }
      rewrite Hpos in S1.
      assert (Pn : 0 < 2 ^ n) by (apply Z.pow_pos_nonneg; lia).
      assert (V : sb (wrap32 (d mod 2 ^ n + u mod 2 ^ n)) = sb o).
      { rewrite <- sample_bits_mod, <- (sample_bits_mod bpc o). f_equal. unfold wrap32.
        assert (D : two32 = 2 ^ (32 - n) * 2 ^ n) by (rewrite <- Z.pow_add_r by lia; replace (32 - n + n) with 32 by lia; reflexivity).
        assert (D2 : (2 ^ n | two32)) by (exists (2 ^ (32 - n)); exact D).
        rewrite <- (Znumtheory.Zmod_div_mod (2 ^ n) two32 _ Pn ltac:(reflexivity) D2).
        rewrite <- Z.add_mod by lia. rewrite Ed. rewrite Zplus_mod_idemp_l. f_equal. lia. }
      rewrite V in B1.
      assert (B1' : byte_bits data1 = P ++ flat_map sb (os ++ [o]) ++ flat_map sb ds ++ T).
      { rewrite B1, flat_map_app. cbn [flat_map]. rewrite app_nil_r, <- !app_assoc. reflexivity. }
      assert (Ld : zlen data1 = zlen data).
      { pose proof (byte_bits_length data1) as A1. pose proof (byte_bits_length data) as A2. rewrite B1 in A1.
        rewrite Hbits in A2. cbn [flat_map] in A2. rewrite !zlen_app in A1, A2.
        unfold zlen at 3 in A1. unfold zlen at 3 in A2. rewrite sample_bits_length in A1, A2. lia. }
      assert (Lo : zlen (os ++ [o]) = zlen os + 1) by (rewrite zlen_app; reflexivity).
      assert (STEP : forall f, r * rw < zlen data -> tiff_loop (S f) rw n colors columns r c i data
                       = tiff_loop f rw n colors columns r c (i + 1) data1).
      { intros f Hf. cbn [tiff_loop].
        destruct (r * rw <? zlen data) eqn:E1; [|apply Z.ltb_ge in E1; lia].
        destruct (c <? columns) eqn:E2; [|apply Z.ltb_ge in E2; lia].
        destruct (i <? colors) eqn:E3; [|apply Z.ltb_ge in E3; lia].
        rewrite Q1, Q2, Q3, Q4, Q5, Q6, G1, G2, S1.
        destruct (zlen data * 8 <=? r * rw * 8 + (c * colors + i) * n) eqn:E4; [apply Z.leb_le in E4; nia|]. reflexivity. }
      destruct (Z.eq_dec (i + 1) colors) as [Hw|Hw].
      + destruct (IH rs (os ++ [o]) (c + 1) 0 P T data1 r Hp B1' HP) as (k & data' & HB & HL); try lia.
        exists (S (S k)), data'. split.
        { rewrite HB, flat_map_app. cbn [flat_map]. rewrite app_nil_r, <- !app_assoc. reflexivity. }
        intros f Hf. cbn [plus]. rewrite STEP by auto. rewrite <- HL by lia. cbn [tiff_loop].
        destruct (r * rw <? zlen data1) eqn:E1; [|apply Z.ltb_ge in E1; lia].
        destruct (c <? columns) eqn:E2; [|apply Z.ltb_ge in E2; lia].
        destruct (i + 1 <? colors) eqn:E3; [apply Z.ltb_lt in E3; lia|]. reflexivity.
      + destruct (IH rs (os ++ [o]) c (i + 1) P T data1 r Hp B1' HP) as (k & data' & HB & HL); try lia.
        exists (S k), data'. split.
        { rewrite HB, flat_map_app. cbn [flat_map]. rewrite app_nil_r, <- !app_assoc. reflexivity. }
        intros f Hf. cbn [plus]. rewrite STEP by auto. apply HL. lia.
  Qed.
End Loop.

Lemma zget_split : forall A (l : list A) i x, zget l i = Some x -> exists a b, l = a ++ x :: b /\ zlen a = i.
Proof.
  intros A l i x H. apply zget_Some in H. destruct H as [Hi H]. apply nth_error_split in H.
  destruct H as (a & b & E & L). exists a, b. split; auto. unfold zlen. lia.
Qed.

Lemma zget_ex : forall A (l : list A) i, 0 <= i < zlen l -> exists x, zget l i = Some x.
Proof.
  intros A l i H. destruct (zget l i) eqn:E; eauto. apply zget_None_iff in E. lia.
Qed.

Lemma differenced_pending : forall bpc colors row diff, 1 <= colors -> differenced bpc colors row diff ->
  (forall v, In v row -> 0 <= v < 2 ^ Z.of_nat bpc) ->
  forall rs os ds d0, row = os ++ rs -> diff = d0 ++ ds -> List.length d0 = List.length os -> colors <= zlen os ->
  pending bpc colors os ds rs.
Proof.
  intros bpc colors row diff Hc [Ld Hd] Hv. induction rs as [|o rs IH]; intros os ds d0 E1 E2 L H.
  - rewrite E1, E2, !app_length in Ld. destruct ds; [exact I|simpl in Ld; lia].
  - rewrite E1, E2, !app_length in Ld. destruct ds as [|d ds]; [simpl in Ld; lia|]. cbn [pending].
    split; [apply Hv; rewrite E1; apply in_or_app; right; left; reflexivity|].
    assert (Zo : zget row (zlen os) = Some o).
    { rewrite E1. replace (zlen os) with (zlen os + 0) by lia. rewrite zget_app_r by lia. reflexivity. }
    assert (Zd : zget diff (zlen os) = Some d).
    { rewrite E2. replace (zlen os) with (zlen d0 + 0) by (unfold zlen; lia). rewrite zget_app_r by lia. reflexivity. }
    destruct (zget_ex _ os (zlen os - colors) ltac:(lia)) as [u Zu].
    assert (Zu' : zget row (zlen os - colors) = Some u) by (rewrite E1, zget_app_l by lia; exact Zu).
    destruct (Hd _ _ Zo) as [_ D]. specialize (D _ Zu'). rewrite Zd in D. injection D as D.
    apply zget_split in Zu. destruct Zu as (o1 & o2 & Eos & Lo). split.
    + exists o1, u, o2. split; auto. split; auto. rewrite Eos in Lo. rewrite zlen_app, zlen_cons in Lo. lia.
    + apply (IH _ _ (d0 ++ [d])).
      * rewrite <- app_assoc. exact E1.
      * rewrite <- app_assoc. exact E2.
      * rewrite !app_length. simpl. lia.
      * rewrite zlen_app. pose proof (zlen_nonneg _ [o]). lia.
Qed.

Lemma nth_firstn_z : forall n k (l : list Z), (k < n)%nat -> nth k (firstn n l) 0 = nth k l 0.
Proof.
  induction n as [|n IH]; intros k l H; [lia|]. destruct l as [|x l]; [reflexivity|].
  destruct k as [|k]; [reflexivity|]. simpl. apply IH. lia.
Qed.

Lemma firstn_differenced : forall bpc colors row diff, differenced bpc colors row diff ->
  firstn (Z.to_nat colors) diff = firstn (Z.to_nat colors) row.
Proof.
  intros bpc colors row diff [L H]. apply (nth_ext _ _ 0 0).
  - rewrite !firstn_length. lia.
  - intros k Hk. rewrite firstn_length in Hk.
    assert (Z1 : zget row (Z.of_nat k) = Some (nth k row 0)).
    { rewrite zget_nth, Nat2Z.id by lia. apply nth_error_nth'. lia. }
    destruct (H _ _ Z1) as [H1 _]. specialize (H1 ltac:(lia)).
    rewrite zget_nth, Nat2Z.id in H1 by lia. apply (nth_error_nth _ _ 0) in H1.
    rewrite !nth_firstn_z by lia. exact H1.
Qed.

Definition rows_bits (bpc : nat) (rows : list (list Z * list bool)) : list bool :=
  flat_map (fun rp => flat_map (sample_bits bpc) (fst rp) ++ snd rp) rows.

Definition undo_of (bpc : nat) (colors : Z) (rp dp : list Z * list bool) : Prop :=
  differenced bpc colors (fst rp) (fst dp) /\ snd dp = snd rp.

Lemma row_bits_width : forall bpc colors columns rp, row_ok bpc colors columns rp ->
  zlen (flat_map (sample_bits bpc) (fst rp) ++ snd rp) = 8 * ((Z.of_nat bpc * colors * columns + 7) / 8).
Proof.
  intros bpc colors columns rp (L & _ & P & M). rewrite zlen_app, fm_length, L.
  set (a := Z.of_nat bpc * (colors * columns)) in *. replace (Z.of_nat bpc * colors * columns) with a by (unfold a; ring).
  pose proof (zlen_nonneg _ (snd rp)). assert (zlen (snd rp) < 8) by (unfold zlen; lia).
  pose proof (Z.div_mod (a + zlen (snd rp)) 8 ltac:(lia)) as D. rewrite M in D.
  assert ((a + 7) / 8 = (a + zlen (snd rp)) / 8).
  { symmetry. apply (Z.div_unique_pos _ _ _ (7 - zlen (snd rp))); lia. }
  lia.
Qed.

Lemma tiff_all_rows : forall bpc colors columns rw, (1 <= bpc <= 16)%nat -> 1 <= colors -> 1 <= columns ->
  rw = (Z.of_nat bpc * colors * columns + 7) / 8 -> forall rows drows,
  Forall2 (undo_of bpc colors) rows drows -> Forall (row_ok bpc colors columns) rows ->
  forall P data r, byte_bits data = P ++ rows_bits bpc drows -> zlen P = r * rw * 8 -> 0 <= r -> 8 * zlen data < two63 ->
  exists k out, byte_bits out = P ++ rows_bits bpc rows /\
    forall f, tiff_loop (k + f) rw (Z.of_nat bpc) colors columns r 1 0 data = Ok out.
Proof.
  intros bpc colors columns rw Hb Hc Hl Hrw rows drows HF. 
  assert (Wpos : 0 < rw) by (rewrite Hrw; apply Z.div_str_pos; nia).
  induction HF as [|rp dp rows drows [Hd Hpad] HF IH]; intros Hok P data r Hbits HP Hr Hs.
  - exists 1%nat, data. split; auto. intros f. cbn [plus tiff_loop].
    pose proof (byte_bits_length data) as L. rewrite Hbits, zlen_app in L. change (zlen (rows_bits bpc [])) with 0 in L.
    destruct (r * rw <? zlen data) eqn:E; [apply Z.ltb_lt in E; lia|]. reflexivity.
  - inversion Hok as [|x y Hrow Hrows]; subst x y.
    pose proof (row_bits_width _ _ _ _ Hrow) as Wd. rewrite <- Hrw in Wd. destruct Hrow as (Lr & Hv & _).
    assert (Ld : zlen (fst dp) = colors * columns).
    { destruct Hd as [L _]. unfold zlen in *. lia. }
    set (row := fst rp) in *. set (diff := fst dp) in *.
    set (os := firstn (Z.to_nat colors) row). set (rs := skipn (Z.to_nat colors) row).
    set (ds := skipn (Z.to_nat colors) diff).
    assert (Lc : colors <= zlen row) by nia.
    assert (Los : zlen os = colors) by (unfold os, zlen in *; rewrite firstn_length; lia).
    assert (Lds : zlen ds = colors * columns - colors) by (unfold ds, zlen in *; rewrite skipn_length; lia).
    assert (Er : row = os ++ rs) by (symmetry; apply firstn_skipn).
    assert (Ed : diff = os ++ ds).
    { rewrite <- (firstn_skipn (Z.to_nat colors) diff). fold ds. f_equal. apply (firstn_differenced bpc). exact Hd. }
    assert (Pend : pending bpc colors os ds rs).
    { apply (differenced_pending bpc colors row diff Hc Hd Hv rs os ds os Er Ed eq_refl). lia. }
    cbn [rows_bits flat_map] in Hbits. change (flat_map _ drows) with (rows_bits bpc drows) in Hbits.
    fold diff in Hbits. rewrite Ed, flat_map_app in Hbits. rewrite <- !app_assoc in Hbits.
    destruct (tiff_row bpc colors columns rw Hb Hc Hl ds rs os 1 0 P (snd dp ++ rows_bits bpc drows) data r Pend Hbits HP Hs Hr)
      as (k1 & data1 & B1 & S1); try lia.
    assert (L1 : zlen data1 = zlen data).
    { pose proof (byte_bits_length data1) as A1. pose proof (byte_bits_length data) as A2. rewrite B1 in A1. rewrite Hbits in A2.
      rewrite !zlen_app, !fm_length in A1, A2.
      assert (zlen rs = zlen ds) by (unfold rs, ds, zlen in *; rewrite !skipn_length; lia). nia. }
    assert (W2 : zlen (flat_map (sample_bits bpc) os ++ flat_map (sample_bits bpc) rs ++ snd dp) = 8 * rw).
    { rewrite app_assoc, <- flat_map_app, <- Er, Hpad. exact Wd. }
    destruct (IH Hrows (P ++ flat_map (sample_bits bpc) os ++ flat_map (sample_bits bpc) rs ++ snd dp) data1 (r + 1))
      as (k2 & out & B2 & S2); try lia.
    { rewrite B1, <- !app_assoc. reflexivity. }
    { rewrite zlen_app, W2. lia. }
    exists (k1 + k2)%nat, out. split.
    { rewrite B2. cbn [rows_bits flat_map]. fold row. rewrite Er, flat_map_app, Hpad, <- !app_assoc. reflexivity. }
    intros f. rewrite <- Nat.add_assoc, S1; [apply S2|].
    pose proof (byte_bits_length data) as A2. rewrite Hbits in A2. rewrite zlen_app in A2.
    assert (8 * rw <= zlen (flat_map (sample_bits bpc) os ++ flat_map (sample_bits bpc) ds ++ snd dp ++ rows_bits bpc drows)).
    { assert (A3 : zlen (flat_map (sample_bits bpc) os ++ flat_map (sample_bits bpc) ds ++ snd dp) = 8 * rw).
      { rewrite <- W2. rewrite !zlen_app, !fm_length.
        assert (zlen rs = zlen ds) by (unfold rs, ds, zlen in *; rewrite !skipn_length; lia). lia. }
      rewrite !zlen_app in *. pose proof (zlen_nonneg _ (rows_bits bpc drows)). lia. }
    lia.
Qed.

Lemma tiff_inverts : forall bpc colors columns rows drows data,
  (1 <= bpc <= 16)%nat -> 1 <= colors -> 1 <= columns -> 8 * zlen data < two63 ->
  Forall (row_ok bpc colors columns) rows -> Forall2 (undo_of bpc colors) rows drows -> tiff_rows bpc drows data ->
  exists out f0, tiff_rows bpc rows out /\
    forall fuel, (f0 <= fuel)%nat -> reverse_predictor fuel 2 (Z.of_nat bpc) colors columns data = Ok out.
Proof.
  intros bpc colors columns rows drows data Hb Hc Hl Hs Hok HF Hd. unfold tiff_rows in *.
  destruct (tiff_all_rows bpc colors columns _ Hb Hc Hl eq_refl rows drows HF Hok [] data 0 Hd eq_refl (Z.le_refl 0) Hs)
    as (k & out & B & S).
  exists out, k. split; [exact B|]. intros fuel Hf. replace fuel with (k + (fuel - k))%nat by lia. unfold reverse_predictor.
  assert (Hn : (Z.of_nat bpc <=? 0) || (16 <? Z.of_nat bpc) = false).
  { apply orb_false_iff. split; [apply Z.leb_gt|apply Z.ltb_ge]; lia. }
  rewrite Hn. clear Hn. change (2 =? 1) with false. change (2 =? 2) with true. cbv iota.
  inversion HF as [E1 E2|rp dp rows' drows' [Hdd _] HF' E1 E2].
  - subst. assert (data = []) by (apply byte_bits_inj; exact Hd). subst data.
    assert (out = []) by (apply byte_bits_inj; exact B). subst out.
    destruct (_ <=? 0); auto. destruct k as [|k].
    + specialize (S 0%nat). discriminate S.
    + reflexivity.
  - subst. inversion Hok as [|x y Hrow Hrows]; subst x y.
    assert (Fit : Z.of_nat bpc * colors * columns < two63).
    { pose proof (byte_bits_length out) as L. pose proof (byte_bits_length data) as L2.
      assert (LL : zlen out = zlen data \/ True) by auto.
      rewrite Hd in L2. unfold rows_bits in L2. cbn [flat_map] in L2. rewrite !zlen_app, fm_length in L2.
      destruct Hrow as (Lr & _). destruct Hdd as [Ld _]. unfold zlen in Lr. 
      assert (zlen (fst dp) = colors * columns) by (unfold zlen; lia).
      pose proof (zlen_nonneg _ (snd dp)).
      pose proof (zlen_nonneg _ (flat_map (fun rp => flat_map (sample_bits bpc) (fst rp) ++ snd rp) drows')).
      nia. }
    destruct (prod_fits (Z.of_nat bpc) colors columns) as [P1 P2]; auto; try lia. rewrite P1, row_width by auto.
    assert (W : 0 < (Z.of_nat bpc * colors * columns + 7) / 8) by (apply Z.div_str_pos; lia).
    destruct ((Z.of_nat bpc * colors * columns + 7) / 8 <=? 0) eqn:E; [apply Z.leb_le in E; lia|]. apply S.
Qed.

(** ** Totality (for C32) *)
Section Total.
  Variables (bpc colors columns rw L : Z).
  Hypothesis Hbpc : 1 <= bpc <= 16.
  Hypothesis Hprod : bpc * colors * columns < 2 ^ 62.
  Hypothesis HL : L < 2 ^ 58.
  Hypothesis Hrw : 0 < rw.

  Definition halts (r c i : Z) (data : bytes) : Prop :=
    exists f0 d, zlen d = L /\ forall fuel, (f0 <= fuel)%nat -> tiff_loop fuel rw bpc colors columns r c i data = Ok d.

  Lemma halts_done : forall r c i data, zlen data = L -> L <= r * rw -> halts r c i data.
  Proof.
    intros r c i data Hd H. exists 1%nat, data. split; auto. intros [|f] Hf; [lia|]. cbn [tiff_loop].
    destruct (r * rw <? zlen data) eqn:E; [apply Z.ltb_lt in E; lia|]. reflexivity.
  Qed.

  Lemma halts_row : forall r c i data, zlen data = L -> columns <= c -> halts (r + 1) 1 0 data -> halts r c i data.
  Proof.
    intros r c i data Hd Hc (f0 & d & Ld & H). destruct (Z.lt_ge_cases (r * rw) L) as [H1|H1]; [|apply halts_done; auto].
    exists (S f0), d. split; auto. intros [|f] Hf; [lia|]. cbn [tiff_loop].
    destruct (r * rw <? zlen data) eqn:E; [|apply Z.ltb_ge in E; lia].
    destruct (c <? columns) eqn:E2; [apply Z.ltb_lt in E2; lia|]. apply H. lia.
  Qed.

  Lemma halts_column : forall r c i data, zlen data = L -> c < columns -> colors <= i -> halts r (c + 1) 0 data -> halts r c i data.
  Proof.
    intros r c i data Hd Hc Hi (f0 & d & Ld & H). destruct (Z.lt_ge_cases (r * rw) L) as [H1|H1]; [|apply halts_done; auto].
    exists (S f0), d. split; auto. intros [|f] Hf; [lia|]. cbn [tiff_loop].
    destruct (r * rw <? zlen data) eqn:E; [|apply Z.ltb_ge in E; lia].
    destruct (c <? columns) eqn:E2; [|apply Z.ltb_ge in E2; lia].
    destruct (i <? colors) eqn:E3; [apply Z.ltb_lt in E3; lia|]. apply H. lia.
  Qed.

  Lemma halts_sample : forall r c i data, zlen data = L -> 0 <= r -> 1 <= c < columns -> 0 <= i < colors ->
    (forall d, zlen d = L -> halts r c (i + 1) d) -> halts r c i data.
  Proof.
    intros r c i data Hd Hr Hc Hi Hnext. destruct (Z.lt_ge_cases (r * rw) L) as [H1|H1]; [|apply halts_done; auto].
    assert (Hcc : c * colors + i < columns * colors) by nia.
    assert (0 <= c * colors) by nia. assert (0 <= r * rw) by nia. assert (colors <= c * colors) by nia.
    assert (Hq : (c * colors + i) * bpc < 2 ^ 62) by nia.
    assert (Hq0 : 0 <= (c * colors + i) * bpc) by nia.
    assert (Hcb : 0 <= colors * bpc <= (c * colors + i) * bpc) by nia.
    change (2 ^ 62) with 4611686018427387904 in *. change (2 ^ 58) with 288230376151711744 in *.
    assert (Q1 : wrap64 (c * colors) = c * colors) by (apply wrap64_small; unfold two63; nia).
    assert (Q2 : wrap64 (c * colors + i) = c * colors + i) by (apply wrap64_small; unfold two63; nia).
    assert (Q3 : wrap64 ((c * colors + i) * bpc) = (c * colors + i) * bpc) by (apply wrap64_small; unfold two63; lia).
    assert (Q4 : wrap64 (r * rw * 8 + (c * colors + i) * bpc) = r * rw * 8 + (c * colors + i) * bpc)
      by (apply wrap64_small; unfold two63; lia).
    assert (Q5 : wrap64 (colors * bpc) = colors * bpc) by (apply wrap64_small; unfold two63; lia).
    assert (Q6 : wrap64 (r * rw * 8 + (c * colors + i) * bpc - colors * bpc) = r * rw * 8 + (c * colors + i) * bpc - colors * bpc)
      by (apply wrap64_small; unfold two63; lia).
    set (p := r * rw * 8 + (c * colors + i) * bpc) in *.
    assert (G1 : exists v, get_bits data (p - colors * bpc) bpc = Some v) by (rewrite get_bits_window by lia; eauto).
    assert (G2 : exists v, get_bits data p bpc = Some v) by (rewrite get_bits_window by lia; eauto).
    destruct G1 as [v1 G1], G2 as [v2 G2].
    destruct (set_bits_bit data p bpc (wrap32 (v2 + v1))) as (d1 & S1 & L1 & _); try lia.
    assert (STEP : forall f, tiff_loop (S f) rw bpc colors columns r c i data =
              if zlen data * 8 <=? p then Ok data else tiff_loop f rw bpc colors columns r c (i + 1) d1).
    { intros f. cbn [tiff_loop].
      destruct (r * rw <? zlen data) eqn:E; [|apply Z.ltb_ge in E; lia].
      destruct (c <? columns) eqn:E2; [|apply Z.ltb_ge in E2; lia].
      destruct (i <? colors) eqn:E3; [|apply Z.ltb_ge in E3; lia].
      rewrite Q1, Q2, Q3. fold p. rewrite Q4, Q5, Q6, G1, G2, S1. reflexivity. }
    destruct (zlen data * 8 <=? p).
    - exists 1%nat, data. split; auto. intros [|f] Hf; [lia|]. apply STEP.
    - destruct (Hnext d1 ltac:(lia)) as (f0 & d & Ld & HN). exists (S f0), d. split; auto. intros [|f] Hf; [lia|].
      rewrite STEP. apply HN. lia.
  Qed.

  Lemma halts_in_column : forall r c, 0 <= r -> 1 <= c < columns -> (forall d, zlen d = L -> halts r (c + 1) 0 d) ->
    forall k i data, (Z.to_nat (colors - i) <= k)%nat -> 0 <= i -> zlen data = L -> halts r c i data.
  Proof.
    intros r c Hr Hc Hnext. induction k as [|k IH]; intros i data Hk Hi Hd.
    - apply halts_column; auto; lia.
    - destruct (Z.lt_ge_cases i colors) as [H|H]; [|apply halts_column; auto; lia].
      apply halts_sample; auto. intros d Ld. apply IH; auto; lia.
  Qed.

  Lemma halts_in_row : forall r, 0 <= r -> (forall d, zlen d = L -> halts (r + 1) 1 0 d) ->
    forall k c data, (Z.to_nat (columns - c) <= k)%nat -> 1 <= c -> zlen data = L -> halts r c 0 data.
  Proof.
    intros r Hr Hnext. induction k as [|k IH]; intros c data Hk Hc Hd.
    - apply halts_row; auto; lia.
    - destruct (Z.lt_ge_cases c columns) as [H|H]; [|apply halts_row; auto; lia].
      apply (halts_in_column r c Hr (conj Hc H)) with (k := Z.to_nat (colors - 0)); auto; try lia.
      intros d Ld. apply IH; auto; lia.
  Qed.

  Lemma halts_all : forall k r data, (Z.to_nat (L - r) <= k)%nat -> 0 <= r -> zlen data = L -> halts r 1 0 data.
  Proof.
    induction k as [|k IH]; intros r data Hk Hr Hd.
    - apply halts_done; auto. nia.
    - destruct (Z.lt_ge_cases r L) as [H|H]; [|apply halts_done; auto; nia].
      apply (halts_in_row r Hr) with (k := Z.to_nat (columns - 1)); auto; try lia.
      intros d Ld. apply IH; auto; lia.
  Qed.
End Total.

Lemma predictor_total : forall predictor bpc colors columns data,
  - two63 <= bpc * colors < two63 -> - two63 <= bpc * colors * columns < 2 ^ 62 -> zlen data < 2 ^ 58 ->
  exists f0 out, forall fuel, (f0 <= fuel)%nat -> reverse_predictor fuel predictor bpc colors columns data = Ok out.
Proof.
  intros predictor bpc colors columns data H1 H2 H3. unfold reverse_predictor.
  destruct ((bpc <=? 0) || (16 <? bpc)) eqn:E1; [exists O, data; auto|].
  apply orb_false_iff in E1. destruct E1 as [E1 E1']. apply Z.leb_gt in E1. apply Z.ltb_ge in E1'.
  rewrite (wrap64_small (bpc * colors)) by auto.
  rewrite (wrap64_small (bpc * colors * columns)) by (change (2 ^ 62) with 4611686018427387904 in H2; unfold two63 in *; lia).
  set (rw := Z.quot _ 8 + _). destruct (rw <=? 0) eqn:E2; [exists O, data; auto|]. apply Z.leb_gt in E2.
  destruct (predictor =? 1) eqn:E3; [exists O, data; auto|].
  destruct (predictor =? 2) eqn:E4.
  - destruct (halts_all bpc colors columns rw (zlen data)) with (k := Z.to_nat (zlen data)) (r := 0) (data := data)
      as (f0 & d & Ld & H); auto; try lia. exists f0, d. exact H.
  - destruct ((10 <=? predictor) && (predictor <=? 15)); [|exists O, data; auto].
    destruct (png_loop_total predictor rw (List.length data) 0 data []) as [out E]; auto; try lia.
    exists O, out. intros fuel _. rewrite E. reflexivity.
Qed.

(** For every predictor but the TIFF predictor, without any restriction. *)
Lemma predictor_total_png : forall fuel predictor bpc colors columns data, predictor <> 2 ->
  exists out, reverse_predictor fuel predictor bpc colors columns data = Ok out.
Proof.
  intros fuel predictor bpc colors columns data H. unfold reverse_predictor.
  destruct ((bpc <=? 0) || (16 <? bpc)); [eauto|].
  set (rw := Z.quot _ 8 + _). destruct (rw <=? 0) eqn:E2; [eauto|]. apply Z.leb_gt in E2.
  destruct (predictor =? 1); [eauto|].
  destruct (predictor =? 2) eqn:E4; [apply Z.eqb_eq in E4; contradiction|].
  destruct ((10 <=? predictor) && (predictor <=? 15)); [|eauto].
  destruct (png_loop_total predictor rw (List.length data) 0 data []) as [out E]; auto; try lia.
  rewrite E. eauto.
Qed.

Lemma tiff_rows_inj : forall bpc rows a b, tiff_rows bpc rows a -> tiff_rows bpc rows b -> a = b.
Proof. intros bpc rows a b Ha Hb. apply byte_bits_inj. unfold tiff_rows in *. congruence. Qed.
