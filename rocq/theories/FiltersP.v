(** FiltersP.v -- proofs about Filters.v and Bits.v: ASCIIHexDecode,
    ASCII85Decode, RunLengthDecode, BytesToInt. *)
From Verif Require Import Base BaseP Lexer Bits Filters SpecLex SpecLexP SpecFilters.
From Coq Require Import Strings.String.
Local Open Scope Z_scope.

(** ** BytesToInt (C59) *)
Lemma be_app : forall a b, be (a ++ b) = be a * 256 ^ zlen b + be b.
Proof.
  induction a as [|x a IH]; intros b; cbn [be app]; [lia|].
  rewrite IH. unfold zlen. rewrite app_length, Nat2Z.inj_add, Z.pow_add_r by lia. ring.
Qed.

Lemma be_range : forall a, 0 <= be a < 256 ^ zlen a.
Proof.
  induction a as [|x a IH]; cbn [be]; [rewrite zlen_nil; simpl; lia|].
  rewrite zlen_cons. unfold zlen in *. rewrite Z.pow_add_r by lia. pose proof (bv_range x). nia.
Qed.

Lemma bytes_to_int_from : forall b v, fold_left (fun v x => wrap64 (wrap64 (v * 256) + bv x)) b (wrap64 v)
  = wrap64 (v * 256 ^ zlen b + be b).
Proof.
  induction b as [|x b IH]; intros v; cbn [fold_left be].
  - rewrite zlen_nil. f_equal. simpl. lia.
  - rewrite wrap64_mul_l, wrap64_add_l, IH. rewrite zlen_cons. f_equal. unfold zlen.
    rewrite Z.pow_add_r by lia. ring.
Qed.

Lemma bytes_to_int_wraps : forall b, bytes_to_int b = wrap64 (be b).
Proof.
  intros b. unfold bytes_to_int. change 0 with (wrap64 0). rewrite bytes_to_int_from. f_equal.
Qed.

Lemma bytes_to_int_be : forall b, bytes_to_int b = wrap64 (be b) /\ (be b < two63 -> bytes_to_int b = be b).
Proof.
  intros b. split; [apply bytes_to_int_wraps|]. intros H. rewrite bytes_to_int_wraps.
  apply wrap64_small. pose proof (be_range b). unfold two63 in *. lia.
Qed.

Lemma read_be_fits : forall w a r, zlen a = w -> read_be w (a ++ r) = Ok ((wrap64 (be a), true), r).
Proof.
  intros w a r H. unfold read_be. subst w. pose proof (zlen_nonneg _ a).
  destruct (zlen a <? 0) eqn:E; [apply Z.ltb_lt in E; lia|].
  rewrite ztake_app, zdrop_app, Z.eqb_refl, bytes_to_int_wraps. reflexivity.
Qed.

Lemma read_be_short : forall w a, zlen a < w -> read_be w a = Ok ((0, false), []).
Proof.
  intros w a H. unfold read_be. pose proof (zlen_nonneg _ a).
  destruct (w <? 0) eqn:E; [apply Z.ltb_lt in E; lia|].
  unfold ztake, zdrop. destruct (w <? zlen a) eqn:E1; [apply Z.ltb_lt in E1; lia|].
  destruct (zlen a =? w) eqn:E2; [apply Z.eqb_eq in E2; lia|]. reflexivity.
Qed.

(** ** ASCIIHexDecode (C26) *)
Lemma ahex_second_len : forall l b r, ahex_second l = (b, r) -> (List.length r <= List.length l)%nat.
Proof.
  induction l as [|x l IH]; intros b r H; simpl in H.
  - injection H as <- <-. simpl; lia.
  - destruct (is_ws x); [apply IH in H; simpl; lia|].
    destruct (beq x ">"%byte); injection H as <- <-; simpl; lia.
Qed.

Lemma ahex_fuel : forall n m l, (List.length l <= n)%nat -> (List.length l <= m)%nat -> ahex_loop n l = ahex_loop m l.
Proof.
  induction n as [|n IH]; intros m l Hn Hm.
  - destruct l; [|simpl in Hn; lia]. destruct m; reflexivity.
  - destruct m as [|m]; [destruct l; [reflexivity|simpl in Hm; lia]|].
    destruct l as [|b r]; [reflexivity|]. simpl in *.
    destruct (is_ws b); [apply IH; lia|]. destruct (beq b ">"%byte); [reflexivity|].
    destruct (ahex_second r) as [b2 r2] eqn:E2. apply ahex_second_len in E2.
    rewrite (IH m r2) by lia. reflexivity.
Qed.

(** the Go loop's unfolding equation *)
Lemma ahex_eq : forall l, ascii_hex_decode l =
  match l with
  | [] => []
  | b1 :: r =>
      if is_ws b1 then ascii_hex_decode r
      else if beq b1 ">"%byte then []
      else let '(b2, r) := ahex_second r in
           if is_hex b1 && is_hex b2 then hex2 b1 b2 :: ascii_hex_decode r else ascii_hex_decode r
  end.
Proof.
  intros [|b1 r]; [reflexivity|]. unfold ascii_hex_decode. simpl.
  destruct (is_ws b1); [reflexivity|]. destruct (beq b1 ">"%byte); [reflexivity|].
  destruct (ahex_second r) as [b2 r2] eqn:E2. apply ahex_second_len in E2.
  rewrite (ahex_fuel (List.length r) (List.length r2) r2) by lia. reflexivity.
Qed.

Lemma ends_gt : forall r, ends_with ">"%byte r -> ascii_hex_decode r = [] /\ ahex_second r = ("0"%byte, r).
Proof. intros r [->|[r' ->]]; split; reflexivity. Qed.

Lemma ahex_text : forall t ds k, hex_digits t ds k -> k = 0%nat -> forall r, ends_with ">"%byte r ->
  (forall v, hex_pairs ds v -> ascii_hex_decode (t ++ r) = v) /\
  match ds with
  | [] => ahex_second (t ++ r) = ("0"%byte, r)
  | d :: ds' => exists b r2, hexdigit b d /\ ahex_second (t ++ r) = (b, r2) /\
                  (forall v, hex_pairs ds' v -> ascii_hex_decode r2 = v)
  end.
Proof.
  induction 1 as [|b t ds k Hb Ht IH|b t ds k H1 H2 H3 H4 Ht IH|b d t ds k Hb Ht IH]; intros K r Hr.
  - destruct (ends_gt r Hr) as [E1 E2]. split; [|exact E2]. intros v Hv. inversion Hv; subst. exact E1.
  - destruct (IH K r Hr) as [I1 I2]. apply is_ws_spec in Hb. cbn [app]. split.
    + intros v Hv. rewrite ahex_eq. rewrite Hb. auto.
    + cbn [ahex_second]. rewrite Hb. exact I2.
  - discriminate.
  - destruct (IH K r Hr) as [I1 I2]. pose proof (proj1 (hexdigit_spec _ _) Hb) as [Hx Hd].
    destruct (hex_not_special b Hx) as (N1 & N2 & N3). cbn [app].
    assert (W : is_ws b = false) by (destruct b; try reflexivity; discriminate).
    assert (G : beq b ">"%byte = false) by (destruct b; try reflexivity; discriminate).
    split.
    + intros v Hv. rewrite ahex_eq, W, G. inversion Hv as [|x w Hw|x y w ds' v' Hw Hp]; subst.
      * rewrite I2. rewrite Hx. change (is_hex "0"%byte) with true. cbn [andb].
        destruct (ends_gt r Hr) as [E1 E2]. rewrite E1. f_equal.
        apply (hex2_value b "0"%byte d 0); auto; [left; reflexivity|]. rewrite Hw. f_equal. lia.
      * destruct I2 as (b2 & r2 & Hb2 & E2 & Hr2). rewrite E2.
        pose proof (proj1 (hexdigit_spec _ _) Hb2) as [Hx2 _]. rewrite Hx, Hx2. cbn [andb].
        rewrite (Hr2 _ Hp). f_equal. eapply hex2_value; eauto.
    + exists b, (t ++ r). split; auto. split; [|exact I1]. cbn [ahex_second]. rewrite W, G. reflexivity.
Qed.

Lemma ascii_hex_inverts : forall t ds v r, hex_digits t ds 0 -> hex_pairs ds v -> ends_with ">"%byte r ->
  ascii_hex_decode (t ++ r) = v.
Proof. intros t ds v r H1 H2 H3. exact (proj1 (ahex_text t ds 0 H1 eq_refl r H3) v H2). Qed.

(** ** ASCII85Decode (C27, C28) *)
Lemma be4 : forall a b c d, be [a; b; c; d] = ((bv a * 256 + bv b) * 256 + bv c) * 256 + bv d.
Proof. intros. unfold be. simpl List.length. change (Z.of_nat 3) with 3. change (Z.of_nat 2) with 2.
  change (Z.of_nat 1) with 1. change (Z.of_nat 0) with 0. lia. Qed.

Lemma be32_be : forall a b c d, be32 (be [a; b; c; d]) = [a; b; c; d].
Proof.
  intros a b c d. rewrite be4. unfold be32.
  pose proof (bv_range a). pose proof (bv_range b). pose proof (bv_range c). pose proof (bv_range d).
  assert (E : forall x q r, 0 <= r < 256 -> x = q * 256 + r -> zb x = zb r).
  { intros x q r Hr ->. rewrite <- (zb_mod (q * 256 + r)). f_equal. rewrite Z.add_comm, Z.mod_add by lia.
    apply Z.mod_small; lia. }
  set (N := ((bv a * 256 + bv b) * 256 + bv c) * 256 + bv d).
  assert (D1 : N / 16777216 = bv a).
  { symmetry. apply (Z.div_unique_pos N 16777216 (bv a) ((bv b * 256 + bv c) * 256 + bv d)); unfold N; lia. }
  assert (D2 : N / 65536 = bv a * 256 + bv b).
  { symmetry. apply (Z.div_unique_pos N 65536 _ (bv c * 256 + bv d)); unfold N; lia. }
  assert (D3 : N / 256 = (bv a * 256 + bv b) * 256 + bv c).
  { symmetry. apply (Z.div_unique_pos N 256 _ (bv d)); unfold N; lia. }
  rewrite D1, D2, D3.
  rewrite (E (bv a * 256 + bv b) (bv a) (bv b)) by lia.
  rewrite (E ((bv a * 256 + bv b) * 256 + bv c) (bv a * 256 + bv b) (bv c)) by lia.
  rewrite (E N ((bv a * 256 + bv b) * 256 + bv c) (bv d)) by (unfold N; lia).
  rewrite !zb_bv. reflexivity.
Qed.

Lemma be32_range : forall a b c d, 0 <= be [a; b; c; d] < two32.
Proof. intros. pose proof (be_range [a; b; c; d]). change (256 ^ zlen [a;b;c;d]) with two32 in H. exact H. Qed.

Lemma be32_value : forall v, 0 <= v < two32 -> be (be32 v) = v.
Proof.
  intros v H. unfold be32. rewrite be4, !bv_zb. unfold two32 in H.
  pose proof (Z.div_mod v 256). pose proof (Z.div_mod (v/256) 256). pose proof (Z.div_mod (v/65536) 256).
  assert (Q1 : v / 256 / 256 = v / 65536) by (rewrite Z.div_div by lia; reflexivity).
  assert (Q2 : v / 65536 / 256 = v / 16777216) by (rewrite Z.div_div by lia; reflexivity).
  rewrite Q1, Q2 in *.
  assert (v / 16777216 < 256) by (apply Z.div_lt_upper_bound; lia).
  assert (0 <= v / 16777216) by (apply Z.div_pos; lia).
  rewrite (Z.mod_small (v / 16777216)) by lia. lia.
Qed.

Lemma ws_small : forall b, ws_byte b -> bv b <= 32.
Proof. intros b H. apply is_ws_spec in H. destruct b; vm_compute; try discriminate; discriminate H. Qed.

(** a digit, and white space *)
Lemma a85_digit : forall c d r v n acc, digit85 c d -> 0 <= v -> (n < 4)%nat ->
  v * 85 + d < two32 -> a85_loop (c :: r) v n acc = a85_loop r (v * 85 + d) (S n) acc.
Proof.
  intros c d r v n acc [Hd Hc] Hv Hn Hlt. cbn [a85_loop].
  assert (B1 : beq c "~"%byte = false) by (apply beq_neq; intros ->; change (bv "~"%byte) with 126 in Hc; lia).
  assert (B2 : is_ws c = false).
  { apply is_ws_false. intros W. apply ws_small in W. lia. }
  assert (B3 : beq c "z"%byte = false) by (apply beq_neq; intros ->; change (bv "z"%byte) with 122 in Hc; lia).
  rewrite B1, B2, B3.
  assert (B4 : (bv c <? 33) || (117 <? bv c) = false).
  { apply orb_false_iff. split; apply Z.ltb_ge; lia. }
  rewrite B4. assert (B5 : (5 <=? S n)%nat = false) by (apply Nat.leb_gt; lia). rewrite B5.
  unfold wrap32. replace (bv c - 33) with d by lia.
  rewrite (Z.mod_small d) by (unfold two32; lia). rewrite (Z.mod_small (v * 85)) by (unfold two32 in *; lia).
  rewrite Z.mod_small by (unfold two32 in *; lia). reflexivity.
Qed.

Lemma a85_fifth : forall c d r v acc, digit85 c d -> 0 <= v -> v * 85 + d < two32 ->
  a85_loop (c :: r) v 4 acc = a85_loop r 0 0 (acc ++ be32 (v * 85 + d)).
Proof.
  intros c d r v acc [Hd Hc] Hv Hlt. cbn [a85_loop].
  assert (B1 : beq c "~"%byte = false) by (apply beq_neq; intros ->; change (bv "~"%byte) with 126 in Hc; lia).
  assert (B2 : is_ws c = false).
  { apply is_ws_false. intros W. apply ws_small in W. lia. }
  assert (B3 : beq c "z"%byte = false) by (apply beq_neq; intros ->; change (bv "z"%byte) with 122 in Hc; lia).
  rewrite B1, B2, B3.
  assert (B4 : (bv c <? 33) || (117 <? bv c) = false).
  { apply orb_false_iff. split; apply Z.ltb_ge; lia. }
  rewrite B4. change (5 <=? 5)%nat with true. cbv iota.
  unfold wrap32. replace (bv c - 33) with d by lia.
  rewrite (Z.mod_small d) by (unfold two32; lia). rewrite (Z.mod_small (v * 85)) by (unfold two32 in *; lia).
  rewrite Z.mod_small by (unfold two32 in *; lia). reflexivity.
Qed.

(** white space does not matter *)
Lemma a85_spaced : forall t u, spaced t u -> forall r v n acc, a85_loop (t ++ r) v n acc = a85_loop (u ++ r) v n acc.
Proof.
  induction 1 as [|b t u Hb H IH|b t u H IH]; intros r v n acc; [reflexivity| |].
  - cbn [app a85_loop]. pose proof (proj2 (is_ws_spec b) Hb) as W.
    assert (T : beq b "~"%byte = false) by (destruct b; try reflexivity; discriminate).
    rewrite T, W. apply IH.
  - cbn [app a85_loop]. rewrite !IH. repeat destruct (_ : bool); auto.
Qed.

Lemma a85_code_loop : forall t v, a85_code t v -> forall r acc,
  a85_loop (t ++ r) 0 0 acc = a85_loop r 0 0 (acc ++ v).
Proof.
  induction 1; intros r acc.
  - rewrite app_nil_r. reflexivity.
  - cbn [app]. cbn [a85_loop]. change (beq "z" "~")%byte with false. change (is_ws "z") with false.
    change (beq "z" "z")%byte with true. change (0 =? 0)%nat with true. cbv iota. rewrite IHa85_code.
    rewrite <- app_assoc. reflexivity.
  - pose proof (be32_range b0 b1 b2 b3) as R. rewrite <- H4 in R. unfold val85 in *.
    destruct H as [? ?], H0 as [? ?], H1 as [? ?], H2 as [? ?], H3 as [? ?]. cbn [app].
    rewrite (a85_digit c0 d0) by (try split; try (unfold two32 in *); auto; lia).
    rewrite (a85_digit c1 d1) by (try split; try (unfold two32 in *); auto; lia).
    rewrite (a85_digit c2 d2) by (try split; try (unfold two32 in *); auto; lia).
    rewrite (a85_digit c3 d3) by (try split; try (unfold two32 in *); auto; lia).
    rewrite (a85_fifth c4 d4) by (try split; try (unfold two32 in *); auto; lia).
    replace ((((0 * 85 + d0) * 85 + d1) * 85 + d2) * 85 + d3) with (((d0 * 85 + d1) * 85 + d2) * 85 + d3) by lia.
    rewrite H4, be32_be, IHa85_code, <- app_assoc. reflexivity.
Qed.

Lemma a85_end : forall r v n acc, ends_with "~"%byte r -> a85_loop r v n acc = a85_finish v n acc.
Proof. intros r v n acc [->|[r' ->]]; reflexivity. Qed.

Lemma ascii85_inverts : forall t u v r, a85_code u v -> spaced t u -> ends_with "~"%byte r ->
  ascii85_decode (t ++ r) = v.
Proof.
  intros t u v r H1 H2 H3. unfold ascii85_decode. rewrite (a85_spaced _ _ H2), (a85_code_loop _ _ H1), (a85_end _ _ _ _ H3).
  reflexivity.
Qed.

Lemma digit85_exists : forall d, 0 <= d < 85 -> digit85 (zb (d + 33)) d.
Proof. intros d H. split; auto. rewrite bv_zb. apply Z.mod_small. lia. Qed.

Lemma digits85 : forall v, 0 <= v < two32 -> exists d0 d1 d2 d3 d4,
  (0 <= d0 < 85 /\ 0 <= d1 < 85 /\ 0 <= d2 < 85 /\ 0 <= d3 < 85 /\ 0 <= d4 < 85) /\ val85 d0 d1 d2 d3 d4 = v.
Proof.
  intros v H. unfold two32 in H. unfold val85.
  exists (v / 85 / 85 / 85 / 85), ((v / 85 / 85 / 85) mod 85), ((v / 85 / 85) mod 85), ((v / 85) mod 85), (v mod 85).
  pose proof (Z.div_mod v 85). pose proof (Z.div_mod (v/85) 85). pose proof (Z.div_mod (v/85/85) 85).
  pose proof (Z.div_mod (v/85/85/85) 85).
  pose proof (Z.mod_pos_bound v 85). pose proof (Z.mod_pos_bound (v/85) 85). pose proof (Z.mod_pos_bound (v/85/85) 85).
  pose proof (Z.mod_pos_bound (v/85/85/85) 85). lia.
Qed.

Lemma a85_writable : forall v, zlen v mod 4 = 0 -> exists u, a85_code u v.
Proof.
  intros v. remember (List.length v) as n eqn:E. revert v E. induction n as [n IH] using lt_wf_ind. intros v E H.
  destruct v as [|b0 [|b1 [|b2 [|b3 v]]]]; try (vm_compute in H; discriminate).
  - exists []. constructor.
  - destruct (IH (List.length v)) with (v := v) as [u Hu]; auto.
    { subst. simpl. lia. }
    { rewrite !zlen_cons in H. replace (1 + (1 + (1 + (1 + zlen v)))) with (zlen v + 1 * 4) in H by lia.
      rewrite Z.mod_add in H by lia. exact H. }
    destruct (digits85 _ (be32_range b0 b1 b2 b3)) as (d0 & d1 & d2 & d3 & d4 & (H0 & H1 & H2 & H3 & H4) & Hv).
    eexists. eapply a85_group with (d0 := d0) (d1 := d1) (d2 := d2) (d3 := d3) (d4 := d4);
      try (apply digit85_exists; assumption); eauto.
Qed.

(** the final partial group: one less in the last place unless the dropped
    digits are zero *)
Lemma mul85_small : forall k v, 0 <= v -> v * 85 ^ Z.of_nat k < two32 -> mul85 k v = v * 85 ^ Z.of_nat k.
Proof.
  induction k as [|k IH]; intros v H1 H2; cbn [mul85]; [simpl; lia|].
  rewrite Nat2Z.inj_succ, Z.pow_succ_r in * by lia.
  assert (0 < 85 ^ Z.of_nat k) by (apply Z.pow_pos_nonneg; lia).
  unfold wrap32. rewrite Z.mod_small by nia. rewrite IH by nia. ring.
Qed.

Lemma be_firstn : forall n v, 0 <= v < two32 -> (n <= 4)%nat -> be (firstn n (be32 v)) = v / 256 ^ Z.of_nat (4 - n).
Proof.
  intros n v H Hn. pose proof (be32_value v H) as E. rewrite <- (firstn_skipn n (be32 v)) in E. rewrite be_app in E.
  assert (L : zlen (skipn n (be32 v)) = Z.of_nat (4 - n)).
  { unfold zlen. rewrite skipn_length. reflexivity. }
  rewrite L in E. pose proof (be_range (skipn n (be32 v))) as R. rewrite L in R.
  apply (Z.div_unique_pos v (256 ^ Z.of_nat (4 - n)) _ (be (skipn n (be32 v)))); lia.
Qed.

Lemma be_inj : forall a b, List.length a = List.length b -> be a = be b -> a = b.
Proof.
  induction a as [|x a IH]; intros [|y b] L E; try discriminate; [reflexivity|].
  injection L as L. cbn [be] in E. rewrite L in E.
  pose proof (be_range a). pose proof (be_range b). unfold zlen in *. rewrite L in H.
  assert (X : bv x = bv y) by nia. apply bv_inj in X. subst. f_equal. apply IH; auto. lia.
Qed.

Lemma sub_div : forall d m low, 0 < m -> 0 <= low < m -> (d * m - low) / m = d - (if low =? 0 then 0 else 1).
Proof.
  intros d m low Hm Hl. destruct (low =? 0) eqn:E.
  - apply Z.eqb_eq in E. subst. rewrite Z.sub_0_r, Z.div_mul; lia.
  - apply Z.eqb_neq in E. symmetry. apply (Z.div_unique_pos _ _ (d - 1) (m - low)); lia.
Qed.

(** [n] characters for [n - 1] bytes; [N] the value of the zero-padded group *)
Lemma a85_finish_tail : forall n v acc N low data, (2 <= n <= 4)%nat -> List.length data = (n - 1)%nat ->
  N = be data * 256 ^ Z.of_nat (5 - n) -> v * 85 ^ Z.of_nat (5 - n) = N - low ->
  0 <= v -> 0 <= low < 256 ^ Z.of_nat (5 - n) ->
  exists out, a85_finish v n acc = acc ++ out /\ List.length out = List.length data /\
    be out = be data - (if low =? 0 then 0 else 1).
Proof.
  intros n v acc N low data Hn Hd HN Hv Hv0 Hl. unfold a85_finish.
  destruct (1 <? Z.of_nat n) eqn:E; [|apply Z.ltb_ge in E; lia].
  exists (firstn (n - 1) (be32 (mul85 (5 - n) v))). split; auto.
  pose proof (be_range data) as R. unfold zlen in R. rewrite Hd in R.
  assert (P : 256 ^ Z.of_nat (n - 1) * 256 ^ Z.of_nat (5 - n) = two32).
  { rewrite <- Z.pow_add_r by lia. replace (Z.of_nat (n - 1) + Z.of_nat (5 - n)) with 4 by lia. reflexivity. }
  assert (0 < 256 ^ Z.of_nat (5 - n)) by (apply Z.pow_pos_nonneg; lia).
  assert (0 < 85 ^ Z.of_nat (5 - n)) by (apply Z.pow_pos_nonneg; lia).
  assert (B : 0 <= N - low < two32) by nia.
  rewrite mul85_small by lia. rewrite Hv. split.
  - rewrite firstn_length. simpl List.length. lia.
  - rewrite be_firstn by lia. replace (4 - (n - 1))%nat with (5 - n)%nat by lia. rewrite HN. apply sub_div; lia.
Qed.

Lemma a85_tail_loop : forall t data low, a85_tail t data low -> forall r acc, ends_with "~"%byte r ->
  exists out, a85_loop (t ++ r) 0 0 acc = acc ++ out /\ List.length out = List.length data /\
    be out = be data - (if low =? 0 then 0 else 1).
Proof.
  intros t data low H r acc Hr. destruct H; unfold val85 in *.
  - pose proof (be32_range b0 x00 x00 x00) as R. rewrite <- H4 in R. destruct H as [? ?], H0 as [? ?]. cbn [app].
    rewrite (a85_digit c0 d0) by (try split; try (unfold two32 in *); auto; lia).
    rewrite (a85_digit c1 d1) by (try split; try (unfold two32 in *); auto; lia).
    rewrite a85_end by auto.
    apply (a85_finish_tail 2 _ acc (be [b0; x00; x00; x00])); auto; try lia;
      rewrite be4 in *; cbn [be List.length Z.of_nat]; change (bv x00) with 0 in *;
      change (Z.of_nat (5 - 2)) with 3; try (unfold two32 in *; lia).
  - pose proof (be32_range b0 b1 x00 x00) as R. rewrite <- H4 in R. destruct H as [? ?], H0 as [? ?], H1 as [? ?]. cbn [app].
    rewrite (a85_digit c0 d0) by (try split; try (unfold two32 in *); auto; lia).
    rewrite (a85_digit c1 d1) by (try split; try (unfold two32 in *); auto; lia).
    rewrite (a85_digit c2 d2) by (try split; try (unfold two32 in *); auto; lia).
    rewrite a85_end by auto.
    apply (a85_finish_tail 3 _ acc (be [b0; b1; x00; x00])); auto; try lia;
      rewrite be4 in *; cbn [be List.length Z.of_nat]; change (bv x00) with 0 in *;
      change (Z.of_nat (5 - 3)) with 2; try (unfold two32 in *; lia).
  - pose proof (be32_range b0 b1 b2 x00) as R. rewrite <- H4 in R.
    destruct H as [? ?], H0 as [? ?], H1 as [? ?], H2 as [? ?]. cbn [app].
    rewrite (a85_digit c0 d0) by (try split; try (unfold two32 in *); auto; lia).
    rewrite (a85_digit c1 d1) by (try split; try (unfold two32 in *); auto; lia).
    rewrite (a85_digit c2 d2) by (try split; try (unfold two32 in *); auto; lia).
    rewrite (a85_digit c3 d3) by (try split; try (unfold two32 in *); auto; lia).
    rewrite a85_end by auto.
    apply (a85_finish_tail 4 _ acc (be [b0; b1; b2; x00])); auto; try lia;
      rewrite be4 in *; cbn [be List.length Z.of_nat]; change (bv x00) with 0 in *;
      change (Z.of_nat (5 - 4)) with 1; try (unfold two32 in *; lia).
Qed.

Lemma spaced_app : forall u1 u2 t, spaced t (u1 ++ u2) -> exists t1 t2, t = t1 ++ t2 /\ spaced t1 u1 /\ spaced t2 u2.
Proof.
  intros u1 u2 t H. remember (u1 ++ u2) as u eqn:E. revert u1 E.
  induction H as [|b t u Hb H IH|b t u H IH]; intros u1 E.
  - destruct u1; [|discriminate]. simpl in E. subst. exists [], []. repeat split; constructor.
  - destruct (IH u1 E) as (t1 & t2 & -> & H1 & H2). exists (b :: t1), t2. split; auto. split; auto. apply sp_ws; auto.
  - destruct u1 as [|c u1].
    + simpl in E. subst. exists [], (b :: t). split; auto. split; [constructor|apply sp_char; auto].
    + injection E as -> E. destruct (IH u1 E) as (t1 & t2 & -> & H1 & H2).
      exists (c :: t1), t2. split; auto. split; auto. apply sp_char; auto.
Qed.

Lemma ascii85_tail_off : forall t u w v data low r, a85_code u v -> a85_tail w data low -> spaced t (u ++ w) ->
  ends_with "~"%byte r ->
  exists out, ascii85_decode (t ++ r) = v ++ out /\ List.length out = List.length data /\
    be out = be data - (if low =? 0 then 0 else 1).
Proof.
  intros t u w v data low r Hu Hw Ht Hr. unfold ascii85_decode.
  rewrite (a85_spaced _ _ Ht), <- app_assoc, (a85_code_loop _ _ Hu).
  destruct (a85_tail_loop _ _ _ Hw r ([] ++ v) Hr) as (out & E & L & B). exists out. auto.
Qed.

Lemma ascii85_tail_exact : forall t u w v data low r, a85_code u v -> a85_tail w data low -> spaced t (u ++ w) ->
  ends_with "~"%byte r -> (ascii85_decode (t ++ r) = v ++ data <-> low = 0).
Proof.
  intros t u w v data low r Hu Hw Ht Hr.
  destruct (ascii85_tail_off _ _ _ _ _ _ _ Hu Hw Ht Hr) as (out & E & L & B). rewrite E. split.
  - intros H. apply app_inv_head in H. subst out. destruct (low =? 0) eqn:Q; [apply Z.eqb_eq; auto|lia].
  - intros ->. rewrite Z.eqb_refl in B. f_equal. apply be_inj; auto. lia.
Qed.

(** ** RunLengthDecode (C29) *)
Lemma rl_fuel : forall n m l, (List.length l <= n)%nat -> (List.length l <= m)%nat -> rl_loop n l = rl_loop m l.
Proof.
  induction n as [|n IH]; intros m l Hn Hm.
  - destruct l; [|simpl in Hn; lia]. destruct m; reflexivity.
  - destruct m as [|m]; [destruct l; [reflexivity|simpl in Hm; lia]|].
    destruct l as [|c r]; [reflexivity|]. simpl in *.
    destruct (bv c =? 128); [reflexivity|]. destruct (bv c <? 128).
    + destruct r as [|x r]; [reflexivity|]. destruct (zlen (x :: r) <? bv c + 1); [reflexivity|].
      f_equal. apply IH; rewrite skipn_length; simpl List.length in *; lia.
    + destruct r as [|x r]; [reflexivity|]. f_equal. simpl List.length in *. apply IH; lia.
Qed.

Lemma rl_eq : forall l, run_length_decode l =
  match l with
  | [] => []
  | c :: r =>
      if bv c =? 128 then []
      else if bv c <? 128 then
        match r with
        | [] => []
        | _ :: _ => if zlen r <? bv c + 1 then r
                    else firstn (Z.to_nat (bv c + 1)) r ++ run_length_decode (skipn (Z.to_nat (bv c + 1)) r)
        end
      else match r with [] => [] | b :: r' => repeat b (Z.to_nat (257 - bv c)) ++ run_length_decode r' end
  end.
Proof.
  intros [|c r]; [reflexivity|]. unfold run_length_decode. cbn [List.length rl_loop].
  destruct (bv c =? 128); [reflexivity|]. destruct (bv c <? 128).
  - destruct r as [|x r]; [reflexivity|]. destruct (zlen (x :: r) <? bv c + 1); [reflexivity|].
    f_equal. apply rl_fuel; rewrite ?skipn_length; lia.
  - destruct r as [|x r]; [reflexivity|]. f_equal. apply rl_fuel; simpl; lia.
Qed.

Lemma run_code_app : forall t v, run_code t v -> forall r,
  run_length_decode (t ++ r) = v ++ run_length_decode r.
Proof.
  induction 1; intros r; [reflexivity| |].
  - rewrite rl_eq. cbn [app]. rewrite <- app_assoc. pose proof (bv_range c).
    destruct (bv c =? 128) eqn:E1; [apply Z.eqb_eq in E1; lia|].
    destruct (bv c <? 128) eqn:E2; [|apply Z.ltb_ge in E2; lia].
    destruct l as [|x l]; [rewrite zlen_nil in *; lia|].
    cbn [app]. change (x :: l ++ t ++ r) with ((x :: l) ++ (t ++ r)).
    replace (bv c + 1) with (zlen (x :: l)) by lia.
    destruct (zlen ((x :: l) ++ t ++ r) <? zlen (x :: l)) eqn:E3.
    { apply Z.ltb_lt in E3. rewrite zlen_app in E3. pose proof (zlen_nonneg _ (t ++ r)). lia. }
    unfold zlen. rewrite Nat2Z.id, firstn_app, Nat.sub_diag, firstn_all, firstn_O, app_nil_r.
    rewrite skipn_app, Nat.sub_diag, skipn_all. cbn [app skipn]. rewrite IHrun_code. rewrite <- app_assoc. reflexivity.
  - rewrite rl_eq. cbn [app].
    destruct (bv c =? 128) eqn:E1; [apply Z.eqb_eq in E1; lia|].
    destruct (bv c <? 128) eqn:E2; [apply Z.ltb_lt in E2; lia|].
    rewrite IHrun_code, <- app_assoc. f_equal. f_equal. lia.
Qed.

Lemma run_length_inverts : forall t v r, run_code t v -> ends_with x80 r -> run_length_decode (t ++ r) = v.
Proof.
  intros t v r H [->|[r' ->]]; rewrite (run_code_app _ _ H).
  - change (run_length_decode []) with (@nil byte). apply app_nil_r.
  - rewrite rl_eq. change (bv x80 =? 128) with true. apply app_nil_r.
Qed.

Lemma run_length_cut : forall t v c d, run_code t v -> run_cut c d -> run_length_decode (t ++ c) = v ++ d.
Proof.
  intros t v c d H Hc. rewrite (run_code_app _ _ H). f_equal. rewrite rl_eq. destruct Hc as [|c|c l Hl H2]; auto.
  - destruct (bv c =? 128); [reflexivity|]. destruct (bv c <? 128); reflexivity.
  - destruct (bv c =? 128) eqn:E1; [apply Z.eqb_eq in E1; lia|].
    destruct (bv c <? 128) eqn:E2; [|apply Z.ltb_ge in E2; lia].
    destruct l as [|x l]; [rewrite zlen_nil in Hl; lia|].
    destruct (zlen (x :: l) <? bv c + 1) eqn:E3; [reflexivity|apply Z.ltb_ge in E3; lia].
Qed.

(** every byte string has a run length encoding *)
Lemma run_writable : forall v, exists t, run_code t v.
Proof.
  induction v as [|b v [t Ht]]; [exists []; constructor|].
  exists (x00 :: [b] ++ t). apply (rc_literal x00 [b] t v); auto. vm_compute. split; discriminate.
Qed.
