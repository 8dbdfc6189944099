(** TruncTiffP.v -- the TIFF predictor on data of which the end is missing (C125). *)
From Verif Require Import Base BaseP Lexer Bits Filters SpecLex SpecFilters SpecTrunc FiltersP PngP TiffP.
From Coq Require Import Strings.String.
Local Open Scope Z_scope.

Section Tiff.
  Variables (bpc colors columns rw : Z).
  Hypothesis Hbpc : 1 <= bpc <= 16.
  Hypothesis Hcol : 1 <= colors.
  Hypothesis Hcols : 1 <= columns.
  Hypothesis Hprod : bpc * colors * columns < 2 ^ 62.
  Hypothesis Hrow : bpc * colors * columns <= rw * 8.

  (** the bit at which the loop stands *)
  Definition at_bit (r c i : Z) : Z := r * rw * 8 + (c * colors + i) * bpc.
  Definition inside (r c i : Z) : Prop := 0 <= r /\ 1 <= c <= columns /\ 0 <= i <= colors /\ (c = columns -> i = 0).

  Lemma rw_pos : 0 < rw.
  Proof. assert (1 <= bpc * colors) by nia. assert (1 <= bpc * colors * columns) by nia. lia. Qed.

  Lemma step : forall f r c i d, inside r c i -> zlen d < 2 ^ 58 -> r * rw < zlen d -> c < columns -> i < colors ->
    exists v1 v2 d', get_bits d (at_bit r c i - colors * bpc) bpc = Some v1 /\ get_bits d (at_bit r c i) bpc = Some v2 /\
      set_bits d (at_bit r c i) bpc (wrap32 (v2 + v1)) = Some d' /\ 0 <= at_bit r c i - colors * bpc /\
      tiff_loop (S f) rw bpc colors columns r c i d =
        if zlen d * 8 <=? at_bit r c i then Ok d else tiff_loop f rw bpc colors columns r c (i + 1) d'.
  Proof.
    intros f r c i d (Hr & Hc & Hi & _) HL H1 Lc Li. pose proof rw_pos as Hrw.
    assert (Hcc : c * colors + i < columns * colors) by nia.
    assert (0 <= c * colors) by nia. assert (0 <= r * rw) by nia. assert (colors <= c * colors) by nia.
    assert (Hq : (c * colors + i) * bpc < 2 ^ 62) by nia.
    assert (Hq0 : 0 <= (c * colors + i) * bpc) by nia.
    assert (Hcb : 0 <= colors * bpc <= (c * colors + i) * bpc) by nia.
    change (2 ^ 62) with 4611686018427387904 in *. change (2 ^ 58) with 288230376151711744 in *.
    assert (Q1 : wrap64 (c * colors) = c * colors) by (apply wrap64_small; unfold two63; nia).
    assert (Q2 : wrap64 (c * colors + i) = c * colors + i) by (apply wrap64_small; unfold two63; nia).
    assert (Q3 : wrap64 ((c * colors + i) * bpc) = (c * colors + i) * bpc) by (apply wrap64_small; unfold two63; lia).
    assert (Q4 : wrap64 (r * rw * 8 + (c * colors + i) * bpc) = r * rw * 8 + (c * colors + i) * bpc)
      by (apply wrap64_small; unfold two63; lia).
    assert (Q5 : wrap64 (colors * bpc) = colors * bpc) by (apply wrap64_small; unfold two63; lia).
    assert (Q6 : wrap64 (r * rw * 8 + (c * colors + i) * bpc - colors * bpc) = r * rw * 8 + (c * colors + i) * bpc - colors * bpc)
      by (apply wrap64_small; unfold two63; lia).
    unfold at_bit. set (p := r * rw * 8 + (c * colors + i) * bpc) in *.
    assert (G1 : exists v, get_bits d (p - colors * bpc) bpc = Some v) by (rewrite get_bits_window by lia; eauto).
    assert (G2 : exists v, get_bits d p bpc = Some v) by (rewrite get_bits_window by lia; eauto).
    destruct G1 as [v1 G1], G2 as [v2 G2].
    destruct (set_bits_bit d p bpc (wrap32 (v2 + v1))) as (d1 & S1 & L1 & _); try lia.
    exists v1, v2, d1. split; auto. split; auto. split; auto. split; [lia|]. cbn [tiff_loop].
    destruct (r * rw <? zlen d) eqn:E; [|apply Z.ltb_ge in E; lia].
    destruct (c <? columns) eqn:E2; [|apply Z.ltb_ge in E2; lia].
    destruct (i <? colors) eqn:E3; [|apply Z.ltb_ge in E3; lia].
    rewrite Q1, Q2, Q3. fold p. rewrite Q4, Q5, Q6, G1, G2, S1. reflexivity.
  Qed.

  Lemma at_next : forall r c i, at_bit r c (i + 1) = at_bit r c i + bpc.
  Proof. intros r c i. unfold at_bit. ring. Qed.
  Lemma at_column : forall r c, at_bit r (c + 1) 0 = at_bit r c colors.
  Proof. intros r c. unfold at_bit. ring. Qed.
  Lemma at_row : forall r, at_bit r columns 0 <= at_bit (r + 1) 1 0.
  Proof. intros r. unfold at_bit. assert (0 <= colors * bpc) by nia. replace ((columns * colors + 0) * bpc) with (bpc * colors * columns) by ring. lia. Qed.

  (** where the loop has passed nothing is changed any more *)
  Lemma passed : forall f r c i d x, inside r c i -> zlen d < 2 ^ 58 -> tiff_loop f rw bpc colors columns r c i d = Ok x ->
    zlen x = zlen d /\ forall j, 0 <= j < 8 * zlen d -> j < at_bit r c i -> bitat x j = bitat d j.
  Proof.
    induction f as [|f IH]; intros r c i d x IN HL H; [discriminate|].
    destruct (Z.lt_ge_cases (r * rw) (zlen d)) as [H1|H1].
    2:{ cbn [tiff_loop] in H. destruct (r * rw <? zlen d) eqn:E; [apply Z.ltb_lt in E; lia|]. injection H as <-. auto. }
    pose proof IN as (Hr & Hc & Hi & Hl).
    destruct (Z.lt_ge_cases c columns) as [H2|H2].
    - destruct (Z.lt_ge_cases i colors) as [H3|H3].
      + destruct (step f r c i d IN HL H1 H2 H3) as (v1 & v2 & d' & _ & _ & S1 & P0 & ST). rewrite ST in H.
        destruct (zlen d * 8 <=? at_bit r c i); [injection H as <-; auto|].
        assert (0 <= colors * bpc) by nia.
        destruct (set_bits_bit d (at_bit r c i) bpc (wrap32 (v2 + v1))) as (d1 & S1' & L1 & B1); try lia.
        assert (d1 = d') by congruence. subst d1.
        destruct (IH r c (i + 1) d' x) as [LX BX]; auto; [repeat split; lia|lia|].
        split; [lia|]. intros j Hj Hp. rewrite BX by (rewrite ?at_next; lia). rewrite B1 by lia.
        destruct (at_bit r c i <=? j) eqn:E; [apply Z.leb_le in E; lia|]. reflexivity.
      + assert (i = colors) by lia. subst i. cbn [tiff_loop] in H.
        destruct (r * rw <? zlen d) eqn:E; [|apply Z.ltb_ge in E; lia].
        destruct (c <? columns) eqn:E2; [|apply Z.ltb_ge in E2; lia].
        destruct (colors <? colors) eqn:E3; [apply Z.ltb_lt in E3; lia|].
        rewrite <- at_column. apply (IH r (c + 1) 0 d x); auto. repeat split; lia.
    - assert (c = columns) by lia. subst c. assert (i = 0) by auto. subst i. cbn [tiff_loop] in H.
      destruct (r * rw <? zlen d) eqn:E; [|apply Z.ltb_ge in E; lia].
      destruct (columns <? columns) eqn:E2; [apply Z.ltb_lt in E2; lia|].
      destruct (IH (r + 1) 1 0 d x) as [LX BX]; auto; [repeat split; lia|].
      split; auto. intros j Hj Hp. apply BX; auto. pose proof (at_row r). lia.
  Qed.

  (** samples that are in both are the same *)
  Lemma sample_same : forall d e p v w, 0 <= p -> p + bpc <= 8 * zlen d -> (forall j, 0 <= j < 8 * zlen d -> bitat d j = bitat e j) ->
    get_bits d p bpc = Some v -> get_bits e p bpc = Some w -> v = w.
  Proof.
    intros d e p v w Hp Hl A G1 G2. apply Z.bits_inj'. intros k Hk.
    rewrite (get_bits_bit d p bpc v k), (get_bits_bit e p bpc w k) by (auto; lia).
    destruct (k <? bpc) eqn:E; [apply Z.ltb_lt in E|reflexivity]. rewrite !andb_true_l. apply A. lia.
  Qed.

  Lemma lockstep : forall f r c i d e x y, inside r c i -> zlen d <= zlen e -> zlen e < 2 ^ 58 ->
    (forall j, 0 <= j < 8 * zlen d -> bitat d j = bitat e j) ->
    tiff_loop f rw bpc colors columns r c i d = Ok x -> tiff_loop f rw bpc colors columns r c i e = Ok y ->
    forall j, 0 <= j < 8 * zlen d - 16 -> bitat x j = bitat y j.
  Proof.
    induction f as [|f IH]; intros r c i d e x y IN LE HL A HX HY j Hj; [discriminate|].
    assert (HLd : zlen d < 2 ^ 58) by lia. pose proof rw_pos as Hrw.
    destruct (passed _ _ _ _ _ _ IN HLd HX) as [LX PX]. destruct (passed _ _ _ _ _ _ IN HL HY) as [LY PY].
    assert (END : j < at_bit r c i -> bitat x j = bitat y j).
    { intros Q. rewrite PX, PY by lia. apply A. lia. }
    pose proof IN as (Hr & Hc & Hi & Hl).
    assert (0 <= (c * colors + i) * bpc) by nia.
    destruct (Z.lt_ge_cases (r * rw) (zlen d)) as [H1|H1]; [|apply END; unfold at_bit; lia].
    assert (H1' : r * rw < zlen e) by lia.
    destruct (Z.lt_ge_cases c columns) as [H2|H2].
    - destruct (Z.lt_ge_cases i colors) as [H3|H3].
      + destruct (Z.lt_ge_cases (8 * zlen d) (at_bit r c i + bpc)) as [H4|H4]; [apply END; lia|].
        destruct (step f r c i d IN HLd H1 H2 H3) as (v1 & v2 & d' & G1 & G2 & S1 & P0 & ST). rewrite ST in HX.
        destruct (step f r c i e IN HL H1' H2 H3) as (w1 & w2 & e' & K1 & K2 & S2 & _ & ST2). rewrite ST2 in HY.
        destruct (zlen d * 8 <=? at_bit r c i) eqn:E1; [apply Z.leb_le in E1; lia|].
        destruct (zlen e * 8 <=? at_bit r c i) eqn:E2; [apply Z.leb_le in E2; lia|].
        assert (bpc <= colors * bpc) by nia.
        assert (v1 = w1) by (eapply (sample_same d e); [| |exact A|exact G1|exact K1]; lia). subst w1.
        assert (v2 = w2) by (eapply (sample_same d e); [| |exact A|exact G2|exact K2]; lia). subst w2.
        destruct (set_bits_bit d (at_bit r c i) bpc (wrap32 (v2 + v1))) as (d1 & S1' & L1 & B1); try lia.
        destruct (set_bits_bit e (at_bit r c i) bpc (wrap32 (v2 + v1))) as (e1 & S2' & L2 & B2); try lia.
        assert (d1 = d') by congruence. assert (e1 = e') by congruence. subst d1 e1.
        apply (IH r c (i + 1) d' e' x y); auto; try lia; [repeat split; lia|].
        intros k Hk. rewrite B1, B2 by lia. destruct (_ && _); [reflexivity|]. apply A. lia.
      + cbn [tiff_loop] in HX, HY.
        destruct (r * rw <? zlen d) eqn:E; [|apply Z.ltb_ge in E; lia]. destruct (r * rw <? zlen e) eqn:E'; [|apply Z.ltb_ge in E'; lia].
        destruct (c <? columns) eqn:E2; [|apply Z.ltb_ge in E2; lia].
        destruct (i <? colors) eqn:E3; [apply Z.ltb_lt in E3; lia|].
        apply (IH r (c + 1) 0 d e x y); auto. repeat split; lia.
    - cbn [tiff_loop] in HX, HY.
      destruct (r * rw <? zlen d) eqn:E; [|apply Z.ltb_ge in E; lia]. destruct (r * rw <? zlen e) eqn:E'; [|apply Z.ltb_ge in E'; lia].
      destruct (c <? columns) eqn:E2; [apply Z.ltb_lt in E2; lia|].
      apply (IH (r + 1) 1 0 d e x y); auto. repeat split; lia.
  Qed.
End Tiff.

Lemma bitat_app : forall a b j, 0 <= j < 8 * zlen a -> bitat (a ++ b) j = bitat a j.
Proof.
  intros a b j H. unfold bitat. rewrite row_at_app_l; [reflexivity|]. apply Z.div_lt_upper_bound; lia.
Qed.

Lemma bits_prefix : forall n x y, (n <= List.length x)%nat -> (n <= List.length y)%nat ->
  (forall j, 0 <= j < 8 * Z.of_nat n -> bitat x j = bitat y j) -> firstn n x = firstn n y.
Proof.
  intros n x y Lx Ly A.
  assert (Fx : List.length (firstn n x) = n) by (rewrite firstn_length; lia). assert (Fy : List.length (firstn n y) = n) by (rewrite firstn_length; lia).
  assert (B : forall l, List.length (byte_bits l) = (8 * List.length l)%nat).
  { intros l. pose proof (byte_bits_length l) as Q. unfold zlen in Q. lia. }
  apply byte_bits_inj. apply (nth_ext _ _ false false); [rewrite !B; lia|].
  intros k Hk. rewrite B, Fx in Hk. rewrite !byte_bits_nth by (rewrite ?Fx, ?Fy; lia).
  rewrite <- (bitat_app (firstn n x) (skipn n x)), <- (bitat_app (firstn n y) (skipn n y)) by (unfold zlen; rewrite ?Fx, ?Fy; lia).
  rewrite !firstn_skipn. apply A. lia.
Qed.

Lemma tiff_truncated : forall bpc colors columns a b, 1 <= bpc <= 16 -> 1 <= colors -> 1 <= columns -> bpc * colors * columns < 2 ^ 62 -> zlen (a ++ b) < 2 ^ 58 ->
  exists f0 x y, agrees_but 2 1 b x y /\ zlen x = zlen a /\ zlen y = zlen (a ++ b) /\ forall fuel, (f0 <= fuel)%nat ->
    reverse_predictor fuel 2 bpc colors columns a = Ok x /\ reverse_predictor fuel 2 bpc colors columns (a ++ b) = Ok y.
Proof.
  intros bpc colors columns a b Hb Hc Hcs Hp HL. pose proof (zlen_nonneg _ a). pose proof (zlen_nonneg _ b).
  assert (HLa : zlen a < 2 ^ 58) by (rewrite zlen_app in HL; lia).
  assert (P1 : 1 <= bpc * colors) by nia. assert (P2 : bpc * colors <= bpc * colors * columns) by nia.
  set (rw := Z.quot (bpc * colors * columns) 8 + (if 0 <? Z.rem (bpc * colors * columns) 8 then 1 else 0)).
  assert (Hrw : 0 < rw /\ bpc * colors * columns <= rw * 8).
  { unfold rw. rewrite row_width by lia. pose proof (Z.div_mod (bpc * colors * columns + 7) 8 ltac:(lia)).
    pose proof (Z.mod_pos_bound (bpc * colors * columns + 7) 8 ltac:(lia)). lia. }
  destruct Hrw as [Hrw Hr8].
  assert (RP : forall fuel l, reverse_predictor fuel 2 bpc colors columns l = tiff_loop fuel rw bpc colors columns 0 1 0 l).
  { intros fuel l. unfold reverse_predictor. destruct (bpc <=? 0) eqn:E1; [apply Z.leb_le in E1; lia|]. destruct (16 <? bpc) eqn:E2; [apply Z.ltb_lt in E2; lia|]. cbn [orb].
    rewrite (wrap64_small (bpc * colors)), (wrap64_small (bpc * colors * columns)) by (change (2 ^ 62) with 4611686018427387904 in *; unfold two63; lia).
    fold rw. destruct (rw <=? 0) eqn:E3; [apply Z.leb_le in E3; lia|]. reflexivity. }
  destruct (halts_all bpc colors columns rw (zlen a)) with (k := Z.to_nat (zlen a)) (r := 0) (data := a) as (f1 & x & Lx & Hx); auto; try lia.
  destruct (halts_all bpc colors columns rw (zlen (a ++ b))) with (k := Z.to_nat (zlen (a ++ b))) (r := 0) (data := a ++ b) as (f2 & y & Ly & Hy); auto; try lia.
  exists (Nat.max f1 f2), x, y. split; [|split; [exact Lx|split; [exact Ly|intros fuel Hf; rewrite !RP; split; [apply Hx|apply Hy]; lia]]].
  assert (IN : inside colors columns 0 1 0) by (repeat split; lia).
  assert (A : forall j, 0 <= j < 8 * zlen a - 16 -> bitat x j = bitat y j).
  { apply (lockstep bpc colors columns rw Hb Hc Hcs Hp Hr8 (Nat.max f1 f2) 0 1 0 a (a ++ b) x y IN); [rewrite zlen_app; lia|exact HL| |apply Hx; lia|apply Hy; lia].
    intros j Hj. symmetry. apply bitat_app. exact Hj. }
  set (n := (List.length a - 2)%nat).
  exists (firstn n x), (skipn n x), (skipn n y). rewrite zlen_app in Ly. unfold zlen in *.
  split; [symmetry; apply firstn_skipn|]. split.
  - rewrite (bits_prefix n x y); [symmetry; apply firstn_skipn|lia|lia|]. intros j Hj. apply A. lia.
  - rewrite !skipn_length. lia.
Qed.
